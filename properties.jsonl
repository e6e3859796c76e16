{"id": "C01", "title": "Line framing does not depend on how the connection chunks the data", "statement": "Repeated lineproto.Reader.ReadLine calls (no hooks, no zlib, no limit) return exactly the delimiter-terminated pieces of the byte stream, in order and unmodified, whatever the sizes of the individual reads of the underlying connection (including empty reads and a final read carrying data together with io.EOF).", "quantifier": "every byte stream, every delimiter, every split of the stream into reads, every number of ReadLine calls", "why_tests_cant": "There are exponentially many ways to cut one stream into reads and the buffer boundary (2048) interacts with every one of them.", "anchors": ["lineproto/reader.go: Reader.ReadLine, bufReader.Scan, bufReader.peek"]}
{"id": "C02", "title": "Lines that fit the configured limit are never rejected, far too long ones always are", "statement": "With SetMaxLine(n), n>0, a line of at most n bytes (delimiter included) is always returned intact; a line of more than n-1+2048 bytes is never returned, ReadLine reports 'message is too long' instead. With n<=0 no line is ever rejected.", "quantifier": "every limit, every stream, every chunking", "why_tests_cant": "The limit is checked between buffer scans, so the outcome depends on the alignment of the line with the read buffer.", "anchors": ["lineproto/reader.go: Reader.ReadLine, Reader.SetMaxLine"]}
{"id": "C03", "title": "SetMaxLine is a hard upper bound on returned lines", "statement": "ReadLine never returns a line longer than the value given to SetMaxLine.", "quantifier": "every limit, every stream, every chunking", "why_tests_cant": "Only some alignments of line and read buffer expose the overshoot.", "anchors": ["lineproto/reader.go: Reader.ReadLine:194-211"]}
{"id": "C04", "title": "OnLine hooks filter the stream of lines and nothing else", "statement": "With reader hooks registered by OnLine, ReadLine returns exactly those lines for which every hook said true, in order; hooks are called in registration order, with the complete line, and a hook after one that dropped the line is not called; a hook error is returned and consumes exactly that line.", "quantifier": "every stream, chunking and list of hook functions", "why_tests_cant": "Quantifies over arbitrary user callbacks and all streams.", "anchors": ["lineproto/reader.go: Reader.OnLine, Reader.ReadLine:213-224"]}
{"id": "C05", "title": "Binary transfers consume exactly the announced number of bytes", "statement": "After Binary(n) and Close of the returned reader (whatever part of it was read before, in whatever portions), exactly n bytes of the stream (or all of it when shorter) were consumed and the next ReadLine starts at byte n; the bytes handed out are the first bytes of the stream in order.", "quantifier": "every stream, chunking, n < 2^63, every sequence of partial reads", "why_tests_cant": "Interaction of the read buffer, the limit reader and the chunking has unboundedly many cases.", "anchors": ["lineproto/reader.go: Reader.Binary, binaryReader.Close, Reader.Read, bufReader.Read"]}
{"id": "C06", "title": "A truncated final line is never delivered as a complete line", "statement": "When the connection ends in the middle of a line, ReadLine reports the connection error together with the partial line, and every further call keeps reporting an error: no prefix of a line is ever returned as success.", "quantifier": "every stream, chunking and error", "why_tests_cant": "Needs all crash points of the connection inside a line.", "anchors": ["lineproto/reader.go: Reader.ReadLine:206-211"]}
{"id": "C07", "title": "A closed reader stays closed", "statement": "After Reader.Close every ReadLine, Read, Binary and EnableZlib returns the 'reader is closed' error and touches neither hooks nor the connection.", "quantifier": "every prior state and every later operation sequence", "why_tests_cant": "All histories before and after Close.", "anchors": ["lineproto/reader.go: Reader.Close, ReadLine, Read, EnableZlib, Binary"]}
{"id": "C08", "title": "Switching the reader to zlib and back loses and invents nothing", "statement": "If EnableZlib is called when the unread stream is a complete zlib stream of x followed by rest, the following reads deliver the lines of x ++ rest (the switch back happens silently at the end of the compressed part, also in the middle of a line), and the reader is in plain mode afterwards. A second EnableZlib while active fails and changes nothing.", "quantifier": "every x, rest, chunking of both the connection and the inflater", "why_tests_cant": "Depends on where the end of the compressed data falls relative to two buffers.", "anchors": ["lineproto/reader.go: Reader.EnableZlib, ReadLine:200-205, Read:234-248"]}
{"id": "C09", "title": "The writer delivers all lines, in order, exactly once", "statement": "At every point the bytes handed to the connection followed by the bytes still buffered equal the concatenation of the data of all accepted WriteLine/Write calls in call order; after a successful Flush nothing is left in the buffer. This holds for every buffer size.", "quantifier": "every sequence of WriteLine/Write/Flush, every buffer size, every line size", "why_tests_cant": "Depends on the alignment of writes and the buffer boundary over unbounded histories.", "anchors": ["lineproto/writer.go: Writer.WriteLine, Write, Flush, NewWriterSize"]}
{"id": "C10", "title": "Writer errors are sticky and the connection only ever sees a prefix", "statement": "Once a WriteLine or Flush failed because of the connection, every later WriteLine, Write, Flush, EnableZlib and DisableZlib returns an error and delivers nothing; whatever the connection does (short writes, errors at any point), the delivered bytes are a prefix of the accepted data.", "quantifier": "every operation sequence and every failure behaviour of the connection", "why_tests_cant": "All crash points of the connection.", "anchors": ["lineproto/writer.go: Writer.setError, Err, WriteLine, Flush"]}
{"id": "C11", "title": "Every connection write is bracketed by the timeout callback", "statement": "In WriteLine and Flush, if Timeout is set, all writes to the connection happen after Timeout(true) and the call ends with exactly one Timeout(false); if Timeout(true) fails nothing is written and the error is reported and sticky.", "quantifier": "every operation sequence, buffer size, timeout behaviour and connection behaviour", "why_tests_cant": "Needs all interleavings of buffering, failures and timeouts.", "anchors": ["lineproto/writer.go: Writer.Timeout, Flush, WriteLine, Write, DisableZlib"]}
{"id": "C12", "title": "Writer OnLine hooks drop exactly the lines they reject", "statement": "WriteLine buffers the line iff all hooks return true; a hook returning false drops the line silently without side effects and later hooks are not called; a hook error makes the writer fail permanently.", "quantifier": "every list of hooks and every operation sequence", "why_tests_cant": "Quantifies over arbitrary callbacks.", "anchors": ["lineproto/writer.go: Writer.OnLine, Writer.WriteLine:186-194"]}
{"id": "C13", "title": "Compressed sections are well bracketed", "statement": "For every sequence of operations, the stream seen by the connection consists of plain sections and complete zlib sections: data written before EnableZlib is delivered plain before the section starts, data written while compression is on is delivered inside the section, and DisableZlib/Close terminate the section before any later plain data.", "quantifier": "every operation sequence of WriteLine, Write, Flush, EnableZlib, DisableZlib, Close", "why_tests_cant": "Unbounded histories of mode switches with a buffer in between.", "anchors": ["lineproto/writer.go: Writer.EnableZlibLevel, DisableZlib, Close"]}
{"id": "C14", "title": "Close flushes everything and the writer refuses further use", "statement": "After a successful Close all accepted data was delivered (and an active zlib section terminated), and all later operations return an error; calling Close again is harmless.", "quantifier": "every history", "why_tests_cant": "All histories before Close.", "anchors": ["lineproto/writer.go: Writer.Close"]}
{"id": "C15", "title": "A failed attempt to enable compression leaves the writer usable", "statement": "If EnableZlibLevel returns an error because of an invalid level, the writer continues to work uncompressed.", "quantifier": "every history, every level", "why_tests_cant": "The failing path corrupts state that is only used by later operations.", "anchors": ["lineproto/writer.go: Writer.EnableZlibLevel:101-106, Flush, Close"]}
{"id": "C16", "title": "Lines written on one side are the lines read on the other side", "statement": "For every list of lines that end with the delimiter and contain it nowhere else, writing them with Writer (any buffer size, any flush pattern), transporting the bytes in arbitrary chunks and reading with Reader yields exactly the same list.", "quantifier": "every list of lines, buffer size, flush pattern, chunking", "why_tests_cant": "Composition of two state machines over all schedules.", "anchors": ["lineproto/reader.go", "lineproto/writer.go"]}
{"id": "C17", "title": "TreeHash computes the THEX Tiger tree hash", "statement": "For a reader that fills the buffer whenever data is available, tiger.TreeHash returns the Merkle root defined by the THEX specification: leaves H(0x00||block) over 1024-byte blocks (one empty block for empty input), internal nodes H(0x01||left||right) where the left subtree is the largest complete one.", "quantifier": "every content of every length, every hash function H", "why_tests_cant": "The in-place level-by-level algorithm must agree with the recursive definition for every number of leaves.", "anchors": ["tiger/tth.go: TreeHash, TreeLeaves, Leaves.TreeHash"]}
{"id": "C18", "title": "Hashing leaves and hashing the stream agree", "statement": "For every reader behaviour, TreeLeaves followed by Leaves.TreeHash succeeds exactly when TreeHash does and gives the same hash.", "quantifier": "every reader behaviour including short reads and errors", "why_tests_cant": "Two copies of the same algorithm must agree on all inputs.", "anchors": ["tiger/tth.go: TreeLeaves, Leaves.TreeHash, TreeHash"]}
{"id": "C19", "title": "The tree hash depends only on the content", "statement": "Two readers delivering the same bytes give the same TreeHash.", "quantifier": "every content and every pair of read patterns", "why_tests_cant": "Only unusual read patterns (short reads, empty first read) expose a dependence.", "anchors": ["tiger/tth.go: TreeHash:59-69, TreeLeaves:16-26"]}
{"id": "C20", "title": "Leaves.TreeHash is total and does not modify its receiver", "statement": "TreeHash on any Leaves value returns a hash and leaves the slice unchanged.", "quantifier": "every list of leaves", "why_tests_cant": "All sizes, including zero.", "anchors": ["tiger/tth.go: Leaves.TreeHash"]}
{"id": "C21", "title": "Hash and CID text forms round-trip", "statement": "For every 24-byte hash, FromBase32(Base32(h)) = h, UnmarshalBase32(MarshalBase32(h)) = h, UnmarshalText(MarshalText(h)) = h, UnmarshalADC(MarshalADC(h)) = h; the text has exactly 39 characters of the base32 alphabet and different hashes have different texts.", "quantifier": "all 2^192 hash values", "why_tests_cant": "The domain cannot be enumerated.", "anchors": ["tiger/tiger.go: Hash.Base32, FromBase32, MarshalBase32, UnmarshalBase32, MarshalADC", "adc/types/types.go: CID.Base32, FromBase32"]}
{"id": "C22", "title": "Parsing a hash from text accepts exactly the 39-symbol base32 strings", "statement": "Hash.FromBase32(s) succeeds iff s, after removing CR and LF, consists of 39 base32 symbols, and then the hash is determined by the first 192 bits; on failure the receiver is unchanged; it never panics.", "quantifier": "every string", "why_tests_cant": "Input space is infinite.", "anchors": ["tiger/tiger.go: Hash.FromBase32, UnmarshalText, MustParseBase32"]}
{"id": "C23", "title": "Decoding a hash from network input never crashes", "statement": "Hash.UnmarshalBase32 / UnmarshalADC return a hash or an error for every input.", "quantifier": "every byte string", "why_tests_cant": "Only inputs longer than the fixed-size destination expose the failure.", "anchors": ["tiger/tiger.go: Hash.UnmarshalBase32, UnmarshalADC"]}
{"id": "C24", "title": "SIDFromInt is a faithful 20-bit encoding", "statement": "SIDFromInt maps each 32-bit integer to four base32 symbols; two integers give the same SID iff they are equal modulo 2^20, so SIDs of distinct session numbers below 2^20 never collide.", "quantifier": "all uint32 values", "why_tests_cant": "2^64 pairs.", "anchors": ["adc/types/types.go: SIDFromInt"]}
{"id": "C25", "title": "Key print verification accepts exactly the keyprints of the peer", "statement": "VerifyKeyPrint succeeds iff the expected string is the keyprint of one of the peer certificates, always returns the keyprints of all certificates in order, FromBytes is 'SHA256/' plus 52 base32 symbols and two certificates have equal keyprints iff their SHA-256 digests are equal; FromFile returns the keyprints of exactly the CERTIFICATE blocks in file order and fails iff there are none.", "quantifier": "every certificate list, every keyprint, every PEM block sequence", "why_tests_cant": "Infinite domains.", "anchors": ["keyprint/keyprint.go: FromBytes, FromCertificate, FromFile", "keyprint/tlskp/tlskp.go: VerifyKeyPrint, GetKeyPrints"]}
{"id": "C26", "title": "Encoded NMDC text cannot break out of its field", "statement": "Whatever the value and whatever the text encoder produces, a successfully encoded String contains no '$', '|' or NUL byte, and a successfully encoded Name additionally contains no '<', '>', CR, LF, TAB.", "quantifier": "every string, every text encoder", "why_tests_cant": "Injection needs all strings and all encoders (multi-byte encodings contain delimiter bytes).", "anchors": ["nmdc/utils.go: escapeString, escapeName", "nmdc/types.go: Name.MarshalNMDC, String.MarshalNMDC"]}
{"id": "C27", "title": "NMDC strings round-trip", "statement": "For every valid UTF-8 string without NUL and without a legacy '/%DCNnnn%/' escape sequence, decoding the encoded String gives the same string; the encoding never fails on NUL-free strings. With a text encoder/decoder pair the same holds provided the decoder inverts the encoder.", "quantifier": "every string, every encoder/decoder pair", "why_tests_cant": "Infinite domain; HTML unescaping interacts with every substring.", "anchors": ["nmdc/types.go: String.MarshalNMDC, String.UnmarshalNMDC, UnescapeBytes", "nmdc/utils.go: escapeString"]}
{"id": "C28", "title": "NMDC names round-trip", "statement": "For every valid UTF-8 name of at most 256 bytes whose encoded form also has at most 256 bytes, without '$', NUL, CR, LF, TAB and without legacy escape sequences, decoding the encoded Name gives the same name.", "quantifier": "every name, every encoder/decoder pair", "why_tests_cant": "Infinite domain.", "anchors": ["nmdc/types.go: Name.MarshalNMDC, Name.UnmarshalNMDC", "nmdc/utils.go: escapeName"]}
{"id": "C29", "title": "Decoded text is always valid UTF-8", "statement": "Whenever Name or String decoding succeeds the result is valid UTF-8 (a concatenation of UTF-8 encodings of Unicode scalar values), for every input and every text decoder; if decoding fails for that reason the offending text is reported so the caller can choose another encoding.", "quantifier": "every input, every decoder", "why_tests_cant": "Infinite domain.", "anchors": ["nmdc/types.go: Name.UnmarshalNMDC, String.UnmarshalNMDC", "nmdc/reader.go: errUnknownEncoding"]}
{"id": "C30", "title": "Unsigned number fields are parsed exactly", "statement": "Unsigned number fields (share size, search size, file offsets) accept exactly optionally space-padded decimal digit strings whose value is below 2^64 and yield that value; everything else, in particular any overflow, is rejected.", "quantifier": "every byte string", "why_tests_cant": "Overflow boundaries over all lengths and paddings.", "anchors": ["nmdc/utils.go: parseUin64Trim, trimSpace"]}
{"id": "C31", "title": "Signed number fields are parsed exactly", "statement": "Signed number fields (slots, hub counters) accept exactly optionally space-padded, optionally signed decimal digit strings whose value fits in 64 bits and yield that value, irrespective of the fast/slow path boundary.", "quantifier": "every byte string", "why_tests_cant": "The fast path and slow path must agree on every input.", "anchors": ["nmdc/utils.go: atoiTrim, trimSpace"]}
{"id": "C32", "title": "NMDC chat messages round-trip", "statement": "Encoding and decoding a ChatMessage returns the same name and text, for every encodable name and text such that a nameless text does not start with '<'.", "quantifier": "every name and text", "why_tests_cant": "The decoder searches for '>' followed by any Unicode space; all texts interact with it.", "anchors": ["nmdc/msg_chat.go: ChatMessage.MarshalNMDC, UnmarshalNMDC"]}
{"id": "C33", "title": "Decoding a chat line loses no characters of the text", "statement": "Decoding '<name>text' splits the line at a closing '>' (dropping at most the '>' and one following space): every other byte belongs to the name or to the text.", "quantifier": "every chat line", "why_tests_cant": "Only lines with several '>' where the last one ends the line expose the defect.", "anchors": ["nmdc/msg_chat.go: ChatMessage.UnmarshalNMDC:62-89"]}
{"id": "C34", "title": "Private messages round-trip", "statement": "Encoding and decoding PrivateMessage and MCTo returns the same message for all encodable fields, provided the target name does not contain ' From:' (PrivateMessage) and the sender name contains no space (MCTo).", "quantifier": "every message", "why_tests_cant": "Infinite domain.", "anchors": ["nmdc/msg_chat.go: PrivateMessage, MCTo"]}
{"id": "C35", "title": "ConnectToMe and RevConnectToMe round-trip", "statement": "Encoding and decoding returns the same message for every kind/secure combination, provided names have no spaces and the address has no space and does not end in S, N or R; messages with missing/extra source are rejected by the encoder.", "quantifier": "every message", "why_tests_cant": "Suffix flags interact with arbitrary addresses.", "anchors": ["nmdc/msg_ctm.go: ConnectToMe, RevConnectToMe"]}
{"id": "C36", "title": "MyINFO round-trips", "statement": "Encoding and decoding a MyINFO returns the same user info (flag 0 being sent as 1) for all encodable names, descriptions, emails and speeds, all hub/slot counters, all modes, all 64-bit share sizes, every Extra map iteration order, provided flag is neither '$' nor '|', client/version/extra texts contain no tag separators.", "quantifier": "every user info, every map iteration order", "why_tests_cant": "Thirteen interacting fields with unbounded values.", "anchors": ["nmdc/msg_user.go: MyINFO.MarshalNMDC, UnmarshalNMDC, unmarshalTag"]}
{"id": "C37", "title": "Every user flag combination survives MyINFO", "statement": "For each of the 256 combinations of the documented UserFlag bits, an otherwise well-formed MyINFO can be encoded, framed and decoded again with the same flags.", "quantifier": "every flag combination and every user info", "why_tests_cant": "Only two of 256 flag values break framing, in combination with all other fields.", "anchors": ["nmdc/msg_user.go: MyINFO.MarshalNMDC:157-164, UserFlag"]}
{"id": "C38", "title": "Search requests round-trip", "statement": "Encoding and decoding a Search returns the same request (up to the documented defaults) for all size restrictions, data types, TTH searches and patterns without '$'.", "quantifier": "every request", "why_tests_cant": "Infinite domain.", "anchors": ["nmdc/msg_search.go: Search.MarshalNMDC, UnmarshalNMDC, unmarshalString"]}
{"id": "C39", "title": "Search patterns survive verbatim", "statement": "The pattern received by the peer is the pattern sent, for every encodable pattern.", "quantifier": "every pattern", "why_tests_cant": "Only patterns containing '$' expose the loss.", "anchors": ["nmdc/msg_search.go: Search.MarshalNMDC:95-101, unmarshalString:185-191"]}
{"id": "C40", "title": "Search results round-trip", "statement": "Encoding and decoding an SR returns the same result for file and directory results, TTH or hub name, with and without target, for all sizes and slot counts, provided path components contain no escapable characters, separators or ambiguous slot suffixes.", "quantifier": "every result", "why_tests_cant": "The decoder guesses between file and directory results by scanning backwards.", "anchors": ["nmdc/msg_search.go: SR.MarshalNMDC, SR.UnmarshalNMDC"]}
{"id": "C41", "title": "Paths in search results survive verbatim", "statement": "The path received by the peer is the path sent, for every encodable path.", "quantifier": "every path", "why_tests_cant": "Only paths with characters that need escaping expose the loss.", "anchors": ["nmdc/msg_search.go: SR.UnmarshalNMDC:366-370"]}
{"id": "C42", "title": "TTH searches (SA/SP) round-trip", "statement": "Encoding and decoding TTHSearchActive and TTHSearchPassive returns the same hash and address/user.", "quantifier": "every hash, address, user", "why_tests_cant": "Infinite domain.", "anchors": ["nmdc/msg_search.go: TTHSearchActive, TTHSearchPassive"]}
{"id": "C43", "title": "File requests (ADCGET/ADCSND/Direction) round-trip", "statement": "Encoding and decoding ADCGet, ADCSnd and Direction returns the same message for all 64-bit offsets and lengths (ADCGet: -1 or non-negative), provided type and identifier contain no spaces.", "quantifier": "every message", "why_tests_cant": "64-bit boundaries and optional fields.", "anchors": ["nmdc/msg_files.go: ADCGet, ADCSnd, Direction"]}
{"id": "C44", "title": "A requested length is never turned into a negative one", "statement": "Decoding ADCGet yields Length -1 only if the peer sent '-1', and otherwise the non-negative number sent.", "quantifier": "every input", "why_tests_cant": "Only values of at least 2^63 expose the wrap-around.", "anchors": ["nmdc/msg_files.go: ADCGet.UnmarshalNMDC:88-97"]}
{"id": "C45", "title": "Hub information messages round-trip", "statement": "Encoding and decoding HubINFO, HubName, HubTopic, SetTopic, Supports, FailOver, Version, ForceMove, Lock and Key returns the same message under explicit conditions on separators.", "quantifier": "every message", "why_tests_cant": "Infinite domain.", "anchors": ["nmdc/msg_ping.go: HubINFO", "nmdc/msg_hub.go", "nmdc/extensions.go: Supports", "nmdc/msg_lock.go: Lock, Key", "nmdc/msg_other.go"]}
{"id": "C46", "title": "User lists round-trip", "statement": "Encoding and decoding OpList/BotList (Names) returns the same list for every list of encodable names other than the one-element list with an empty name; UserIP round-trips for every non-empty list whose addresses contain no space or '$'.", "quantifier": "every list", "why_tests_cant": "Unbounded lists.", "anchors": ["nmdc/msg_user_list.go: Names, UserIP"]}
{"id": "C47", "title": "User commands round-trip", "statement": "Encoding and decoding a nmdc UserCommand returns the same command when it has both a path and a command (components non-empty, no backslash, no trailing space) or neither.", "quantifier": "every command", "why_tests_cant": "Infinite domain.", "anchors": ["nmdc/msg_chat.go: UserCommand"]}
{"id": "C48", "title": "Simple NMDC messages round-trip", "statement": "All name-only, string-only, argument-less and error messages decode to what was encoded.", "quantifier": "every message of 20 types", "why_tests_cant": "Infinite domain.", "anchors": ["nmdc/msg_user.go", "nmdc/msg_hub.go", "nmdc/msg_pass.go", "nmdc/msg_errors.go", "nmdc/msg_other.go", "nmdc/msg_ping.go"]}
{"id": "C49", "title": "A message encodes to exactly one frame", "statement": "MarshalTo appends '$' type ' ' payload '|' (or '$' type '|' when the payload is empty) and the only '|' it emits is the final one, for every message whose raw (unescaped) fields contain none; nothing before it in the buffer changes.", "quantifier": "every message, every buffer content, every encoder", "why_tests_cant": "Frame injection via any field.", "anchors": ["nmdc/message.go: MarshalTo, Marshal"]}
{"id": "C50", "title": "Encoding never crashes", "statement": "Marshal returns bytes or an error for every message.", "quantifier": "every message", "why_tests_cant": "Only the completely empty chat message exposes the failure.", "anchors": ["nmdc/message.go: MarshalTo:129-133"]}
{"id": "C51", "title": "Decoding network input never crashes (NMDC)", "statement": "Unmarshal/ReadMsg returns a message or an error for every byte string.", "quantifier": "every byte string, every registered message type", "why_tests_cant": "Infinite input space; only over-long TTH search strings expose the failure.", "anchors": ["nmdc/message.go: Unmarshal", "nmdc/reader.go: readMsgTo", "nmdc/msg_search.go: unmarshalString:176-184"]}
{"id": "C52", "title": "The NMDC key never contains reserved bytes and is the documented function of the lock", "statement": "Lock.Key of a lock with at least two bytes is the nibble-swapped xor chain with the bytes 0, 5, 36, 96, 124, 126 replaced by /%DCNnnn%/ sequences; the result contains none of those bytes, so it is always safe to frame, and undoing the replacement and the xor chain recovers the lock.", "quantifier": "every lock string, every magic byte", "why_tests_cant": "Infinite domain.", "anchors": ["nmdc/msg_lock.go: Lock.Key, CustomKey, LockString"]}
{"id": "C53", "title": "Computing a key never crashes", "statement": "Lock.Key returns a key for every lock received from a hub.", "quantifier": "every lock message", "why_tests_cant": "Only locks shorter than two bytes without the extension prefix expose the failure.", "anchors": ["nmdc/msg_lock.go: CustomKey:103-110"]}
{"id": "C54", "title": "ReadMsg delivers the messages of the stream in order", "statement": "For a stream of encoded well-formed messages with keep-alives in between, successive ReadMsg calls return the decoded messages in order and then io.EOF, for every chunking; each keep-alive is reported to OnKeepAlive once and otherwise ignored.", "quantifier": "every message list, every placement of keep-alives, every chunking", "why_tests_cant": "Unbounded histories and chunkings.", "anchors": ["nmdc/reader.go: Reader.ReadMsg, readMsgTo"]}
{"id": "C55", "title": "The message type read is the one named by the command", "statement": "ReadMsg returns a message whose Type is the command name of the line (empty for chat); unknown commands give a RawMessage carrying the raw arguments unchanged; ReadMsgTo/ReadMsgToAny succeed only with a message of (one of) the requested types and otherwise report ErrUnexpectedCommand with the received command; malformed command names (empty, too long, non-ASCII) and NUL bytes are protocol violations.", "quantifier": "every line, every list of expected messages, every callback that does not change messages", "why_tests_cant": "Infinite input space.", "anchors": ["nmdc/reader.go: readMsgTo", "nmdc/message.go: NewMessage"]}
{"id": "C56", "title": "A message dropped by a hook or ignored after a decode error has no influence on later messages", "statement": "If an OnMessage hook returns (false, nil) or OnUnmarshalError returns false for a message, the reader behaves as if that message had not been sent.", "quantifier": "every stream and hook", "why_tests_cant": "Needs a dropped message followed by a message of another type in the same ReadMsg call.", "anchors": ["nmdc/reader.go: readMsgTo:161-329 (ptr reuse on 'continue read')"]}
{"id": "C57", "title": "ReadMsgToAny with a RawMessage accepts every command", "statement": "Passing a *RawMessage to ReadMsgToAny accepts any command (the code treats raw as a wildcard).", "quantifier": "every command", "why_tests_cant": "The wildcard branch is followed by a type check that always fails.", "anchors": ["nmdc/reader.go: readMsgTo:199-243"]}
{"id": "C58", "title": "WriteMsg writes all messages that hooks do not reject", "statement": "WriteMsg(m1..mk) writes the encodings of exactly the messages for which all OnMessage hooks return true, in order.", "quantifier": "every message list and hook list", "why_tests_cant": "Only multi-message calls with a dropped non-last message expose the loss.", "anchors": ["nmdc/writer.go: Writer.WriteMsg:66-86"]}
{"id": "C59", "title": "A message that cannot be encoded leaves no trace on the connection", "statement": "If encoding a message fails, WriteMsg returns the error, none of its bytes reach the connection, the messages before it are written completely and later WriteMsg calls work as if it had not been attempted.", "quantifier": "every message list and history", "why_tests_cant": "Partial encodings must be discarded at every failure point.", "anchors": ["nmdc/writer.go: Writer.WriteMsg", "nmdc/message.go: MarshalTo"]}
{"id": "C60", "title": "NMDC end to end", "statement": "Messages written with nmdc.Writer (any batching, any buffer size, any flush pattern) and read with nmdc.Reader over an arbitrarily chunking connection arrive unchanged and in order.", "quantifier": "every list of well-formed messages of all types, buffer size, chunking", "why_tests_cant": "Composition of codec, framing and buffering.", "anchors": ["nmdc/writer.go", "nmdc/reader.go", "lineproto/"]}
{"id": "C61", "title": "ADC escaping round-trips and hides separators", "statement": "unescape(escape(s)) = s for every string, and escape(s) contains neither space nor newline, and every backslash in it starts one of the three escapes.", "quantifier": "every string", "why_tests_cant": "Infinite domain, interacting escapes.", "anchors": ["adc/marshal.go: escape, unescape", "adc/types.go: String"]}
{"id": "C62", "title": "ADC packets round-trip", "statement": "For each packet kind and every raw message, DecodePacketRaw(MarshalPacketADC(p)) = p (feature packets: payload must not start with '+', '-' or a space).", "quantifier": "every packet of all eight kinds", "why_tests_cant": "Infinite domain; separators are positional.", "anchors": ["adc/packets.go: DecodePacketRaw, *Packet.MarshalPacketADC, *Packet.UnmarshalPacketADC"]}
{"id": "C63", "title": "Decoding an ADC packet never crashes", "statement": "DecodePacketRaw returns a packet or an error for every byte slice.", "quantifier": "every byte slice, every spare capacity", "why_tests_cant": "Depends on the capacity of the slice behind the data.", "anchors": ["adc/packets.go: FeaturePacket.UnmarshalPacketADC:665-681"]}
{"id": "C64", "title": "Decoded session ids are four characters of the packet header", "statement": "A decoded broadcast/direct/echo/feature packet has SIDs that occur between the separators of the line: no SID contains the line terminator.", "quantifier": "every byte slice", "why_tests_cant": "Only packets truncated exactly inside the SID expose the defect.", "anchors": ["adc/packets.go: BroadcastPacket.UnmarshalPacketADC, DirectPacket, EchoPacket, FeaturePacket"]}
{"id": "C65", "title": "ADC structured messages round-trip", "statement": "Unmarshal(Marshal(m)) = m for the tag-based messages (UserInfo, HubInfo, ChatMessage, ConnectRequest, RevConnectRequest, GetInfoRequest, SearchRequest, SearchResult, UserCommand, Password, Disconnect) for all field values (explicit conditions only for fields whose text form is ambiguous).", "quantifier": "every message value", "why_tests_cant": "All combinations of omitted/present fields with unbounded values.", "anchors": ["adc/marshal.go: Marshal, Unmarshal, marshalValue, unmarshalValue", "adc/user.go", "adc/search.go", "adc/chat.go", "adc/connect.go", "adc/hub.go", "adc/files.go"]}
{"id": "C66", "title": "Decoding ADC message payloads never crashes", "statement": "Unmarshal returns a value or an error for every payload of every registered message type.", "quantifier": "every payload", "why_tests_cant": "Infinite input space; missing positional parameters or over-long hashes expose the failure.", "anchors": ["adc/marshal.go: Unmarshal:118-124", "adc/connect.go", "adc/files.go"]}
{"id": "C67", "title": "ADC booleans are decoded with their meaning", "statement": "A boolean field is decoded to true for '1' and to false for '0'.", "quantifier": "every message", "why_tests_cant": "Needs a peer that sends an explicit 0.", "anchors": ["adc/marshal.go: unmarshalValue:81-89"]}
{"id": "C68", "title": "ADC integers are decoded exactly or rejected", "statement": "An integer field is decoded to the integer denoted by its text; text that does not denote an integer is rejected.", "quantifier": "every text", "why_tests_cant": "Only fractional numbers expose the silent acceptance.", "anchors": ["adc/marshal.go: unmarshalValue:52-70"]}
{"id": "C69", "title": "Generic field lists (UserInfoMod) round-trip", "statement": "Fields.UnmarshalADC(Fields.MarshalADC(f)) = f.", "quantifier": "every field list", "why_tests_cant": "Only values with spaces, newlines or backslashes expose the missing unescape.", "anchors": ["adc/messages.go: Fields.MarshalADC, Fields.UnmarshalADC:130-143"]}
{"id": "C70", "title": "Status messages round-trip", "statement": "Status round-trips for severities >= 0, codes 0..99 and every message text; Err is nil exactly for success, os.ErrNotExist exactly for failures with code 51.", "quantifier": "every status", "why_tests_cant": "All codes and texts.", "anchors": ["adc/messages.go: Status"]}
{"id": "C71", "title": "File requests (GET/SND) round-trip in ADC", "statement": "GetRequest/GetResponse round-trip for every type, path, 64-bit start/length and compression flag.", "quantifier": "every request", "why_tests_cant": "Infinite domain.", "anchors": ["adc/files.go: GetRequest, GetResponse"]}
{"id": "C72", "title": "Feature negotiation is order independent and correct", "statement": "Supported round-trips for every map iteration order; SetFrom gives the later message precedence; Intersect yields exactly the features enabled on both sides, is commutative, and none of them modifies its arguments.", "quantifier": "every feature map, every iteration order", "why_tests_cant": "Map iteration order is random.", "anchors": ["adc/types.go: ModFeatures", "adc/messages.go: Supported"]}
{"id": "C73", "title": "A removed feature is not set", "statement": "ModFeatures.IsSet(f) is true iff the last word about f was 'add'.", "quantifier": "every feature map", "why_tests_cant": "Needs a removal in the history.", "anchors": ["adc/types.go: ModFeatures.IsSet"]}
{"id": "C74", "title": "ADC end to end", "statement": "Packets written with adc.Writer and read with adc.Reader over an arbitrarily chunking connection arrive unchanged and in order, keep-alives are skipped and reported once each.", "quantifier": "every list of packets, buffer size, chunking", "why_tests_cant": "Composition of codec, framing and buffering.", "anchors": ["adc/writer.go", "adc/reader.go", "adc/packets.go", "lineproto/"]}
{"id": "C75", "title": "An ADC packet encodes to exactly one line", "statement": "MarshalPacketADC emits exactly one newline, at the end, whenever message type, SIDs, features and raw payload contain none: no string field can inject a newline.", "quantifier": "every packet with every structured message", "why_tests_cant": "Injection via any field.", "anchors": ["adc/packets.go", "adc/marshal.go"]}
{"id": "C76", "title": "Extension groups classify files by extension", "statement": "ExtGroup.Matches(name) holds iff the group is 0 or contains the group of the extension after the last dot, case-insensitively; groups are disjoint.", "quantifier": "every name, every group", "why_tests_cant": "Infinite domain.", "anchors": ["adc/search.go: ExtGroup.Matches, extGroups"]}
{"id": "C77", "title": "Address dispatch by scheme", "statement": "dc.ParseAddr/NormalizeAddr treat an address as ADC iff its scheme is adc or adcs.", "quantifier": "every address", "why_tests_cant": "Only hosts whose name starts with 'adc' expose the prefix test.", "anchors": ["conn.go: ParseAddr, NormalizeAddr", "nmdc/conn.go", "adc/conn.go"]}
{"id": "C78", "title": "Decoding into a reused message does not leak old state", "statement": "Decoding a line into an already used message value (ReadMsgTo in a loop) gives the same result as decoding into a fresh one.", "quantifier": "every previous value, every line", "why_tests_cant": "Needs two consecutive decodes with different optional parts.", "anchors": ["nmdc/msg_ctm.go: ConnectToMe.UnmarshalNMDC", "nmdc/msg_files.go: ADCGet.UnmarshalNMDC, ADCSnd.UnmarshalNMDC", "nmdc/msg_search.go", "nmdc/msg_errors.go", "adc/types.go: Path.UnmarshalADC"]}
{"id": "C79", "title": "Extension sets intersect correctly", "statement": "Supports.Intersect returns exactly the extensions of the argument that the receiver also has, in the argument's order; Extensions.Intersect/IntersectList/Clone/List are the set operations and List is sorted.", "quantifier": "every pair of lists, every map iteration order", "why_tests_cant": "Unbounded lists, random map order.", "anchors": ["nmdc/extensions.go: Supports.Intersect, Extensions"]}
{"id": "C80", "title": "Splitting application and version is lossless", "statement": "UserInfo.Normalize moves exactly the part of Version before its last space to Application when Application is empty, is idempotent and never changes any other field.", "quantifier": "every user info", "why_tests_cant": "Infinite domain.", "anchors": ["adc/user.go: UserInfo.Normalize"]}
{"id": "C81", "title": "The writer never panics or hangs before Close", "statement": "As long as Close was not called and only valid compression levels were requested, every operation of the writer terminates without panic, whatever the connection, the timeout callback and the hooks answer (including connections that accept nothing and report no error).", "quantifier": "every operation history, every connection behaviour, every buffer size", "why_tests_cant": "Needs arbitrary sequences of misbehaving connections; a non-terminating bufio loop cannot be tested exhaustively.", "anchors": ["lineproto/writer.go: Writer.Write, WriteLine, Flush, EnableZlibLevel, DisableZlib, Close"]}
{"id": "C82", "title": "Login values round-trip", "statement": "The salt of an ADC password request and the identifier of a SID assignment survive encoding and decoding; a SID of another length is rejected.", "quantifier": "every salt, every SID", "why_tests_cant": "Infinite domain; base32 padding depends on the length.", "anchors": ["adc/hub.go: GetPassword.MarshalADC, GetPassword.UnmarshalADC, SIDAssign.MarshalADC, SIDAssign.UnmarshalADC"]}
{"id": "C83", "title": "Announced features are understood", "statement": "The text of AddFeatures decodes (as ModFeatures) to exactly these features, all enabled; Join lists exactly the enabled features; ExtFeatures.Has is membership.", "quantifier": "every list of features, every map iteration order", "why_tests_cant": "Infinite domain, random map order.", "anchors": ["adc/types.go: AddFeatures.MarshalADC, ModFeatures.Join, ExtFeatures.Has"]}
{"id": "C84", "title": "Normalization accepts exactly addresses with a host", "statement": "adc.NormalizeAddr accepts exactly the addresses with scheme adc/adcs, a non-empty host and a port; nmdc.NormalizeAddr those with scheme dchub/nmdcs/nmdc (dchub assumed if there is no ://) and a non-empty host with or without port, IPv6 in brackets; the result is the printed URL without slashes at the end of the path.", "quantifier": "every address, every behaviour of url.Parse and URL.String", "why_tests_cant": "Infinite domain; the fallback with the default port has several error paths.", "anchors": ["adc/conn.go: NormalizeAddr", "nmdc/conn.go: NormalizeAddr, ParseAddr"]}
{"id": "C85", "title": "Normalizing an address twice changes nothing", "statement": "If NormalizeAddr (adc, nmdc or dc) returns s then NormalizeAddr(s) = s, provided that url.Parse understands what URL.String prints.", "quantifier": "every address", "why_tests_cant": "Infinite domain.", "anchors": ["conn.go: NormalizeAddr", "adc/conn.go: NormalizeAddr", "nmdc/conn.go: NormalizeAddr"]}
{"id": "C86", "title": "Text fields mean what their escapes say", "statement": "nmdc.String.UnmarshalNMDC and Name.UnmarshalNMDC accept data iff it contains no forbidden byte (NUL for strings; additionally $, CR, LF, TAB and more than 256 bytes for names), and its text after replacing /%DCNnnn%/ sequences and then HTML character references, converted by the decoder, is valid UTF-8; the value is exactly that text. nmdc.Unescape computes exactly this replacement, including references without semicolon, prefixes of names, numbers out of range and stray ampersands.", "quantifier": "every byte sequence, every decoder", "why_tests_cant": "The set of spellings is infinite (numeric references of any length, 2000 names with and without semicolon, prefixes).", "anchors": ["nmdc/types.go: String.UnmarshalNMDC, Name.UnmarshalNMDC", "nmdc/types.go: UnescapeBytes"]}
{"id": "C87", "title": "Chat lines are read exactly as the protocol describes", "statement": "ChatMessage.UnmarshalNMDC accepts exactly the lines without sender and the lines <name> text where the name ends at the first '>' followed by white space on the first line, otherwise at the last '>' of that line; name and text are the fields around it. A line ending in '>' with an earlier '>' is the one exception (see C33).", "quantifier": "every byte sequence, every decoder", "why_tests_cant": "Infinitely many lines; the split depends on the positions of all brackets, white space and line breaks.", "anchors": ["nmdc/msg_chat.go: ChatMessage.UnmarshalNMDC"]}
{"id": "C88", "title": "Private messages are read exactly as the protocol describes", "statement": "PrivateMessage.UnmarshalNMDC accepts exactly 'to From: from $<name> text' and MCTo exactly 'to $from text', each part ending at the first occurrence of its separator; everything else is an error.", "quantifier": "every byte sequence, every decoder", "why_tests_cant": "Separators may occur inside later parts.", "anchors": ["nmdc/msg_chat.go: PrivateMessage.UnmarshalNMDC, MCTo.UnmarshalNMDC"]}
{"id": "C89", "title": "Connection requests are read exactly as the protocol describes", "statement": "ConnectToMe.UnmarshalNMDC accepts exactly 'target address[N|R][S][ source]' and yields the kind and the secure flag given by the final letters; RevConnectToMe accepts exactly 'from to'.", "quantifier": "every byte sequence, every decoder", "why_tests_cant": "Infinite domain; the suffix letters are ambiguous with the address.", "anchors": ["nmdc/msg_ctm.go: ConnectToMe.UnmarshalNMDC, RevConnectToMe.UnmarshalNMDC"]}
{"id": "C90", "title": "User commands are read exactly as the protocol describes", "statement": "UserCommand.UnmarshalNMDC accepts exactly 'type context [path $command]' up to surrounding white space; digits at the start of type and context give the numbers, the non-empty parts of the path are decoded one by one, the command is the text after the first '$'.", "quantifier": "every byte sequence, every decoder", "why_tests_cant": "Infinite domain with optional parts, white space and empty components.", "anchors": ["nmdc/msg_chat.go: UserCommand.UnmarshalNMDC"]}
{"id": "C91", "title": "Transfer requests are read exactly as the protocol describes", "statement": "ADCGet.UnmarshalNMDC accepts exactly 'type id start length flags...' where length is -1 or a number, ZL1 sets compression, the last DBn gives the downloaded bytes and other flags are ignored; ADCSnd accepts only ZL1 as flag; Direction accepts exactly Upload/Download and a number from 1 to 32767.", "quantifier": "every byte sequence, every decoder", "why_tests_cant": "Flags may occur in any order and number.", "anchors": ["nmdc/msg_files.go: ADCGet.UnmarshalNMDC, ADCSnd.UnmarshalNMDC, Direction.UnmarshalNMDC"]}
{"id": "C92", "title": "Searches are read exactly as the protocol describes", "statement": "Search.UnmarshalNMDC accepts exactly '(Hub:name | address) r?m?size?type?pattern' with r and m T or F, a size that is empty, a number, or a negative number (which clears the restriction), and as pattern TTH:hash (with or without '$' at the end) for type 9 and otherwise a text whose '$' stand for spaces.", "quantifier": "every byte sequence, every decoder", "why_tests_cant": "Infinite domain; question marks inside the pattern, optional fields.", "anchors": ["nmdc/msg_search.go: Search.UnmarshalNMDC, unmarshalString"]}
{"id": "C93", "title": "Search results are read exactly as the protocol describes", "statement": "SR.UnmarshalNMDC accepts exactly 'name path 0x05 size free/total 0x05 (TTH:hash | hub) (address)[0x05 target]', or for directories 'path free/total' without size; a first part that ends with slots is a directory.", "quantifier": "every byte sequence, every decoder", "why_tests_cant": "The two forms are only distinguished by scanning backwards.", "anchors": ["nmdc/msg_search.go: SR.UnmarshalNMDC"]}
{"id": "C94", "title": "Short hash searches are read exactly as the protocol describes", "statement": "TTHSearchActive/TTHSearchPassive.UnmarshalNMDC accept exactly 39 bytes that spell a hash in base32 (line breaks ignored as encoding/base32 does), a space, and the address or user name.", "quantifier": "every byte sequence, every decoder", "why_tests_cant": "Infinite domain.", "anchors": ["nmdc/msg_search.go: TTHSearchActive.UnmarshalNMDC, TTHSearchPassive.UnmarshalNMDC"]}
{"id": "C95", "title": "User information is read exactly as the protocol describes", "statement": "MyINFO.UnmarshalNMDC accepts exactly '$ALL name desc<tag>$mode$connection flag$email$share$'; the last '<' starts the tag, the client name ends before ' V:' or is the first field, fields are separated by commas, single letters are case insensitive, the last field of a kind wins, unknown fields become the extra map, a share size that is no number counts as zero.", "quantifier": "every byte sequence, every decoder, every map order", "why_tests_cant": "Fields in any order and number; unbounded.", "anchors": ["nmdc/msg_user.go: MyINFO.UnmarshalNMDC, unmarshalTag"]}
{"id": "C96", "title": "Lists are read exactly as the protocol describes", "statement": "OpList/BotList, UserIP, Supports and FailOver decode to exactly the entries between their separators: an optional separator (for UserIP also CR) at the end is ignored, a UserIP entry is split at its last space, empty extensions are skipped.", "quantifier": "every byte sequence, every decoder", "why_tests_cant": "Lists of every length.", "anchors": ["nmdc/msg_user_list.go: Names.UnmarshalNMDC, UserIP.UnmarshalNMDC", "nmdc/extensions.go: Supports.UnmarshalNMDC", "nmdc/msg_hub.go: FailOver.UnmarshalNMDC"]}
{"id": "C97", "title": "Hub information is read exactly as the protocol describes", "statement": "HubINFO.UnmarshalNMDC gives every field present its value and leaves the others zero, the version is what follows the last space of the software field, and the encoding only counts if at most one field follows; Lock finds the extension prefix, lock, Pk= and Ref=; an error message is nil iff its text is empty.", "quantifier": "every byte sequence, every decoder, every number of fields", "why_tests_cant": "Any number of fields may be missing or follow.", "anchors": ["nmdc/msg_ping.go: HubINFO.UnmarshalNMDC", "nmdc/msg_lock.go: Lock.UnmarshalNMDC", "nmdc/msg_errors.go: Failed.UnmarshalNMDC, Error.UnmarshalNMDC"]}
{"id": "C98", "title": "Decoding is determined by the grammar", "statement": "For every command name and payload, NewMessage followed by UnmarshalNMDC succeeds iff the payload has a reading of that type, the message is that reading, and there is only one (up to the order of the extra fields of a user); unknown commands keep their payload unchanged.", "quantifier": "every command name, every payload, every decoder", "why_tests_cant": "All message types and all payloads at once.", "anchors": ["nmdc/message.go: NewMessage, RawMessage", "nmdc/reader.go"]}
{"id": "C99", "title": "A reader session reads the stream of the connection in any order of calls", "statement": "For a connection delivering its bytes in any pieces, and any interleaving of ReadLine (with any hooks and limits), Read, Binary (partial reads, then Close), EnableZlib, SetMaxLine and OnLine: every call returns what the unread bytes demand - the next line as the hooks judge it, at most n of the next bytes, the end of file exactly at the end, exactly the announced binary bytes - and leaves the remaining bytes for the next call; a compressed section may end anywhere, also inside a binary transfer or a line, after which compression can be enabled again.", "quantifier": "every byte stream, every chunking, every inflater, every hook list and every sequence of calls", "why_tests_cant": "Interleavings of five kinds of calls with two layers of buffering; the end of the compressed section can fall on any call.", "anchors": ["lineproto/reader.go: Reader.ReadLine, Reader.Read, Reader.EnableZlib, Reader.Binary, binaryReader"]}
{"id": "C100", "title": "Every ADC structure is decoded exactly as its field table demands", "statement": "Unmarshal of a payload into a registered structure type succeeds if and only if every positional word is present and well formed, no named field of an ordinary kind is repeated and every named value is well formed; the result holds each positional word and each named value in its field, keeps the old contents of fields that are absent, ignores unknown names, and the field tables are those of the Go struct tags. It panics exactly when a positional word is missing or a hash is too long while the fields before it are readable.", "quantifier": "every structure type, every payload, every old contents of the structure and every float parser", "why_tests_cant": "Twenty structures with up to thirty fields of a dozen kinds; the acceptable payloads are an infinite language and the tests hold one or two words of it per type.", "anchors": ["adc/marshal.go:99-207", "adc/chat.go", "adc/connect.go", "adc/hub.go", "adc/search.go", "adc/user.go", "adc/types.go"]}
{"id": "C101", "title": "Every ADC message is decoded exactly as specified", "statement": "UnmarshalMessage for any three-letter name and payload succeeds if and only if the payload is in the language of that message (structures, SUP, STA, ZON, ZOF, GET, SND, SID, GPA); the result is the one the specification gives; payloads under unregistered names are kept undecoded; it panics on exactly the payloads listed by the specification and refuses all others with an error.", "quantifier": "every name and every payload", "why_tests_cant": "The language of each message is infinite, and the three outcomes (value, error, panic) must be separated exactly.", "anchors": ["adc/messages.go:38-52,77,93,167,218", "adc/files.go:59,117", "adc/hub.go:35,84", "adc/marshal.go:99"]}
{"id": "C102", "title": "ADC lines are decoded exactly by the packet grammar", "statement": "DecodePacketRaw succeeds if and only if the line is a packet: a known type letter, a three-byte name and the header fields of that type, and the result carries the identifiers, the selected features and the payload found there; DecodePacket succeeds if and only if in addition the payload is in the language of its message.", "quantifier": "every line", "why_tests_cant": "Seven packet types, each with its own header; lines with missing, short or doubled separators are an infinite family.", "anchors": ["adc/packets.go:75,88,182,240,315,410,506,580,675,780"]}
{"id": "C103", "title": "Any NMDC stream is read line by line as the grammar says", "statement": "For any byte stream (valid messages or not) delivered in any pieces, without hooks and OnUnknownEncoding, successive ReadMsg calls return for each line that is no keep-alive its unique meaning: the message its command name and arguments spell, or an error if they spell none; a faulty line never influences another one, keep-alives only run OnKeepAlive, and io.EOF follows forever. Only a Search with an overlong hash panics.", "quantifier": "every byte stream, every chunking, every decoder, every number of calls", "why_tests_cant": "Arbitrary sequences of valid and invalid lines of 40 message types.", "anchors": ["nmdc/reader.go:148-329", "nmdc/message.go", "lineproto/reader.go"]}
{"id": "C104", "title": "OnUnknownEncoding decides how the line is read", "statement": "A line with a text that is not UTF-8 after decoding makes ReadMsg call OnUnknownEncoding with the decoded bytes of a part of its arguments. An error is returned as the result; a new decoder is used for this line, which then means exactly what it means for a fresh reader with that decoder, and for all later lines; nil means that the line is read with every invalid byte replaced by U+FFFD and that the decoder stays. Readable lines never reach the callback, and with the callback set the encoding error of the first attempt is never returned.", "quantifier": "every byte stream, every chunking, every stateful callback, every number of calls", "why_tests_cant": "Second decoding into a partly filled message, for every message type and every failing field.", "anchors": ["nmdc/reader.go:291-310", "nmdc/types.go", "nmdc/message.go"]}
{"id": "C105", "title": "Any ADC stream is read line by line as the packet grammar says", "statement": "For any byte stream (packets or not) delivered in any pieces and any sequence of ReadPacket, ReadPacketRaw, ReadInfo and ReadClient calls, each call answers for the next line that is no keep-alive: the packet (with decoded message, or undecoded), or the message of an info or client packet, exactly if the line is in the grammar; a crash exactly on a cut feature selector without spare capacity or on a payload that crashes the decoder of its message; an error otherwise. A keep-alive runs OnKeepAlive; its error ends the call, and the next call continues behind it. io.EOF follows forever. The answers and the final state of the callback are determined.", "quantifier": "every byte stream, every chunking, every sequence of calls, every stateful OnKeepAlive", "why_tests_cant": "Arbitrary mixtures of valid and invalid lines with calls of four kinds.", "anchors": ["adc/reader.go:26-101", "adc/packets.go:75-132", "adc/messages.go:38-70", "lineproto/reader.go"]}
{"id": "C106", "title": "A relayed ADC packet keeps its meaning", "statement": "A line decoded with DecodePacket or DecodePacketRaw and written again with MarshalPacket is one line, which decodes to the same packet.", "quantifier": "every line, every packet kind, every message type, every behaviour of ParseFloat", "why_tests_cant": "Relaying composes decoder, all value types and encoder on hostile input; texts that are unusual but accepted are not covered by round trips of well-formed values.", "anchors": ["adc/packets.go:75-132", "adc/packets.go:160-560", "adc/marshal.go:43-272", "adc/messages.go:212-231", "adc/types.go:94-160"]}
{"id": "C107", "title": "What the NMDC encoder writes for every message", "statement": "For every message type, MarshalNMDC with a given text encoder accepts exactly the values described by an independent grammar and writes exactly the payload which the grammar gives for them; every other value is refused with an error.", "quantifier": "every message of every type with hashes of 24 bytes, every text encoder", "why_tests_cant": "Tests fix the output of a few well-formed values; which values are refused and what is written for unusual ones (empty parts, unset fields, negative numbers, failing encoders) is not covered.", "anchors": ["nmdc/msg_chat.go:35-300", "nmdc/msg_ctm.go:34-140", "nmdc/msg_errors.go:21-70", "nmdc/msg_files.go:29-250", "nmdc/msg_hub.go:49-107", "nmdc/msg_lock.go:38-110", "nmdc/msg_ping.go:63-115", "nmdc/msg_search.go:55-400", "nmdc/msg_user.go:60-330", "nmdc/msg_user_list.go:23-160", "nmdc/types.go:20-140", "nmdc/extensions.go:45-60"]}
{"id": "C108", "title": "Exactly which NMDC messages arrive unchanged", "statement": "When both sides use UTF-8, a message of any type arrives at the other side equal to the one sent if and only if it meets the conditions of a small specification (texts without NUL and legacy escapes, names whose escaped form is at most 256 bytes, no separator of the message inside a field, numbers that fit, and so on). Every other message is refused or arrives changed.", "quantifier": "every message of every type with hashes of 24 bytes", "why_tests_cant": "Round-trip tests use values known to work. That no other value works, and that the list of conditions is complete, is a statement about all values.", "anchors": ["nmdc/msg_chat.go:35-300", "nmdc/msg_ctm.go:34-140", "nmdc/msg_errors.go:21-70", "nmdc/msg_files.go:29-250", "nmdc/msg_hub.go:49-107", "nmdc/msg_lock.go:38-110", "nmdc/msg_ping.go:63-115", "nmdc/msg_search.go:55-400", "nmdc/msg_user.go:60-330", "nmdc/msg_user_list.go:23-160", "nmdc/types.go:20-140"]}
{"id": "C109", "title": "Decoded NMDC messages which are sent on", "statement": "A message which was decoded and is encoded again for a third side arrives there as it was decoded exactly if it meets the conditions of C108. A chat line with an empty name does not always: for every user name and text there is a line with an empty name which, after decoding and encoding, is byte for byte the line of that user with that text.", "quantifier": "every payload, every message type, every name and text", "why_tests_cant": "The sender of the line chooses a payload nobody would write into a test; the two encodings look right in isolation.", "anchors": ["nmdc/msg_chat.go:35-105", "nmdc/message.go:27-110"]}
{"id": "C110", "title": "What the ADC encoder writes", "statement": "Marshal writes for every message exactly the text of a small grammar, and MarshalPacketADC for every packet exactly the line of that grammar: words separated by single spaces, tags before values, escapes in texts, numbers without superfluous digits, hashes in base32. The line contains no other line feed exactly if no text that is written without escapes holds one.", "quantifier": "every message of every type, every packet", "why_tests_cant": "Tests compare a few encodings; that nothing else is ever written, for no value of any field, is a statement about all of them.", "anchors": ["adc/marshal.go:161-282", "adc/messages.go:72-245", "adc/types.go:42-290", "adc/packets.go:158-180", "adc/packets.go:216-238", "adc/packets.go:288-313", "adc/packets.go:376-408", "adc/packets.go:472-504", "adc/packets.go:556-578", "adc/packets.go:634-673", "adc/packets.go:753-778"]}
{"id": "C111", "title": "Exactly which ADC messages arrive unchanged", "statement": "A message which is encoded and decoded again into a new message of its type equals the one sent if and only if it meets the conditions of a small specification (numbers that fit, identifiers and features of four characters, no escapes in feature names, a status code between 0 and 99 and so on). If the decoder is chosen by the code of the message, hub information, changes of user information and raw messages with the code of a known type do not arrive in addition.", "quantifier": "every message of every type", "why_tests_cant": "Round-trip tests use values known to work; that the list of conditions is complete and every condition needed is a statement about all values.", "anchors": ["adc/marshal.go:25-282", "adc/messages.go:15-257", "adc/types.go:42-300", "adc/files.go:10-119", "adc/hub.go:20-110"]}
{"id": "C112", "title": "Exactly which ADC packets arrive unchanged", "statement": "A packet that is encoded and decoded with its message equals the one sent if and only if its message arrives, its identifiers and features have four bytes and its type three, nothing contains a NUL byte and, for feature packets, the payload does not start like a selector or a space. A status with a negative severity, for example, arrives in any packet but a feature packet.", "quantifier": "every packet", "why_tests_cant": "The conditions depend on the combination of packet kind and message; no test suite covers the product.", "anchors": ["adc/packets.go:75-140", "adc/packets.go:158-800"]}
{"id": "C113", "title": "From the packet writer to ReadPacket", "statement": "Packets written with WritePacket and the streams of the writer, with keep-alives between them and with or without a compressed section, are returned by successive calls of ReadPacket on the other side with their messages decoded, in order and equal, followed by the end of the stream, provided they meet the conditions of C110 and C112. A packet that violates C112 is never returned as it was.", "quantifier": "every history of writer calls, every chunking of the connection, every compressor and inflater that match", "why_tests_cant": "Chunking, buffering, keep-alives and compression interact; tests use one schedule.", "anchors": ["adc/writer.go:11-234", "adc/reader.go:11-100", "adc/packets.go:75-140"]}
{"id": "C114", "title": "What decoding into a used message gives", "statement": "UnmarshalNMDC into a message that already holds values (as happens with ReadMsgTo, or when a dropped message is reused) succeeds exactly for the payloads accepted for a new message, and the result is given by a small relation: for ten types it says for which payloads which fields keep their old value (the error text, the name of a chat line, path and command, sender and the secure flag, compression and byte count, missing hub fields and the version, address or user, pattern or hash and the size of a search, hub name or hash and target of a result, everything in the tag, connection and share); all other types forget their old value. For a message just created the relation is the one of C98.", "quantifier": "every message of every type with any contents, every payload, every decoder of the connection", "why_tests_cant": "Tests decode into new messages; what remains depends on the old contents and on which optional parts of the line are missing.", "anchors": ["nmdc/msg_chat.go:51-110", "nmdc/msg_chat.go:297-349", "nmdc/msg_ctm.go:72-111", "nmdc/msg_files.go:54-132", "nmdc/msg_files.go:157-212", "nmdc/msg_errors.go:20-69", "nmdc/msg_ping.go:110-180", "nmdc/msg_search.go:108-206", "nmdc/msg_search.go:291-422", "nmdc/msg_user.go:195-391"]}
{"id": "C115", "title": "Every call of the message reader with every callback", "statement": "For any stream of lines and any sequence of calls of ReadMsg, ReadMsgTo and ReadMsgToAny with any callbacks installed (keep-alive, raw message, unknown encoding, unmarshal error, message), the answers of all calls, the final state of the callbacks and the decoder kept by the reader are given by a small specification: callbacks are asked in order until one does not pass, and a message callback may change the message for the following ones and for the caller; a line goes into the message that the call already holds, the first given message of its type, or a new one, otherwise the call fails naming the expected type; decoding adds to the old value as in C114; a message that is dropped or whose error is ignored stays the target of the call; an error the callback tolerates ends the call with the half-decoded message; the arguments passed by the caller hold the value of the last line even if the call fails; ReadMsgToAny without arguments crashes without reading.", "quantifier": "every stream of lines in any pieces, every sequence of calls with any messages as arguments, every combination of callbacks with any state", "why_tests_cant": "The callbacks compose with each other, with the reuse of messages and with three kinds of calls; tests install one callback at a time.", "anchors": ["nmdc/reader.go:52-81", "nmdc/reader.go:116-329"]}
{"id": "C116", "title": "A set decoder ends the questions about encodings", "statement": "Once the reader has a decoder which only gives UTF-8, the callback for unknown encodings is never asked again: any calls give exactly the answers they give without that callback, and the decoder stays.", "quantifier": "every such decoder, every stream, every sequence of calls, every other callback", "why_tests_cant": "Holds over whole sessions; a test sees only particular texts. (For a decoder that gives text which is not UTF-8 the callback is asked, and an answer of nil makes the reader decode the remaining lines of the call without the decoder, although it stays set.)", "anchors": ["nmdc/reader.go:106-114", "nmdc/reader.go:149-150", "nmdc/reader.go:291-309"]}
{"id": "C117", "title": "Decoding an ADC payload into a message in use", "statement": "Unmarshal, and DecodeMessageTo of every packet, with a message that already holds something: a payload is accepted exactly if it is in the grammar of the message's type, and then the message holds what the specification says. Fields of structures that are not mentioned keep their value; features of a Supported that are not mentioned keep their state; compression once requested by a GET or SND stays; statuses, identifiers, salts, raw messages and UserInfoMod forget what they held. A UserInfoMod payload is empty or a list of words of at least two bytes separated by single spaces: the name of two bytes and a value that stays escaped. DecodeMessageTo only decodes undecoded messages of the same type. The exact payloads on which it crashes are given as well.", "quantifier": "every payload, every type of message, every value it may hold, every answer of ParseFloat", "why_tests_cant": "Tests decode into new messages; what remains of old values shows only with reuse, and rejected payloads form an infinite set.", "anchors": ["adc/marshal.go:99-159", "adc/packets.go:64-72", "adc/messages.go:127-148", "adc/types.go:122-152", "adc/files.go:59-105", "adc/user.go:28-31"]}
{"id": "C118", "title": "What an ADC message holds after decoding into it failed", "statement": "Unmarshal, and DecodeMessageTo of every packet, returning an error: what the message holds then is determined. Structures: the fields before the one that cannot be read are decoded, that field and those after it keep their value, except that a hash is overwritten with the complete groups that were decoded. Supported: the changes before the first name that does not have four bytes are applied, removals first. GET and SND: the parts before the missing or wrong one are assigned, and a wrong number leaves the number ParseInt returns beside its error: the nearest int64 if the digits are too large, otherwise zero. GetPassword: the complete groups followed by zeros. UserInfoMod: empty. Status and SIDAssign: unchanged. DecodeMessageTo changes nothing if the packet's message is decoded already or of another type. After success the message holds the result of C117.", "quantifier": "every payload that is refused, every type of message, every value it may hold, every answer of ParseFloat", "why_tests_cant": "Tests check that an error is returned, not what the target holds afterwards; half-written messages depend on the position of the mistake.", "anchors": ["adc/marshal.go:99-260", "adc/packets.go:64-72", "adc/messages.go:127-148", "adc/messages.go:218-231", "adc/types.go:122-152", "adc/files.go:59-105", "adc/hub.go:84-89"]}
{"id": "C119", "title": "Messages and packets across compressed sections, binary transfers and line callbacks", "statement": "A reader in the middle of a session, about to read a plain stream or the remainder of a compressed section followed by plain bytes, with any OnLine callbacks registered. Every call of the NMDC reader (ReadMsg, ReadMsgTo, ReadMsgToAny) and of the ADC reader (ReadPacket, ReadPacketRaw, ReadInfo, ReadClient) takes the next lines that the OnLine callbacks let pass, wherever compression ends, even inside of a line; returns what C115 and C105 say about them; ends with the error of a callback or end of file; and leaves a reader that goes on exactly behind the lines used, so that EnableZlib, Binary, Read and further calls (C99) may follow. The configuration of the reader is not changed.", "quantifier": "every session, stream, inflater, division of the stream into reads, OnLine callbacks, protocol callbacks and state of these", "why_tests_cant": "Tests read messages from plain text without line callbacks; the combination with compression that ends inside of a line, and the position after each call, are not tested.", "anchors": ["nmdc/reader.go:112-329", "adc/reader.go:26-100", "lineproto/reader.go:185-302"]}
{"id": "C120", "title": "Registration of message types", "statement": "After any sequence of calls of RegisterMessage by the packages and by the program (panics recovered): a call panics exactly when an earlier call had the same name, and then changes nothing; NewMessage(name) creates the zero value of the type of the first call with that name and a RawMessage with the name if there is none; IsRegistered says which of the two; RegisteredTypes lists every name once in increasing order. The packages nmdc and adc load without a panic, and whatever the program registers later, their own messages are created and decoded as before. A created message has the name it was asked for if the Type method does not depend on the value (a registered RawMessage has an empty name). adc.UnmarshalMessage returns the decoded value of a registered type, but panics when the methods of the type belong to its pointer.", "quantifier": "every sequence of registrations of any types, every name and payload", "why_tests_cant": "The repository registers its own types only; types of other programs, double registration and types with pointer methods are not tested.", "anchors": ["nmdc/message.go:41-88", "adc/messages.go:11-52"]}
{"id": "C121", "title": "Accessors of ADC packets say what the line says", "statement": "For every line that DecodePacketRaw accepts, Kind is its first character, Message().Cmd() the next three, Source the characters 6 to 9 of lines of the kinds B, D, E and F, Target the characters 11 to 14 of the kinds D and E; packets of other kinds have no Source or Target. SetMessage changes the message only and Message returns it. DecodeMessage changes nothing but the message, keeps its command, and a second call changes nothing.", "quantifier": "every line, packet and message", "why_tests_cant": "Tests compare whole packets; they do not call the accessors for every kind of packet or decode twice.", "anchors": ["adc/packets.go:26-72", "adc/packets.go:134-156", "adc/packets.go:264-286", "adc/packets.go:348-374", "adc/packets.go:444-470", "adc/packets.go:610-632"]}
{"id": "C122", "title": "Hexadecimal text and zero values of hashes", "statement": "Hash.Hex is two lower case hexadecimal digits for each byte, the higher half first; different hashes have different texts. Hash.IsZero and CID.IsZero hold exactly for hashes whose bytes are all zero. MustParseCID and MustParseCIDP return the identifier for exactly the texts that denote one and panic for all others.", "quantifier": "every hash and every text", "why_tests_cant": "Tests use a few hashes.", "anchors": ["tiger/tiger.go:55-68", "adc/types/types.go:57-69", "adc/types/types.go:86-89"]}
{"id": "C123", "title": "Failed decodings of NMDC messages leave exactly this", "statement": "UnmarshalNMDC of every message type fails exactly for the payloads and old values given by a separate relation (left_by), and leaves in the message exactly what the relation says: fields before the refused part have the new values, later ones keep the old; a number that is not one leaves zero or the nearest number in slots and hub counters but nothing in others; a hash leaves its complete groups; lists of addresses keep the entries before the refused one, lists of names the old list; a refused tag of MyINFO leaves the old client name, but the version, mode, hubs and additional fields of the tag before the refused item. For every message and payload exactly one of the following holds: the payload is stored (C114), the decoding fails (this relation), or a search for a hash panics (C51).", "quantifier": "every message type, every old value of the message, every payload and every decoder", "why_tests_cant": "Tests check that some payloads are refused; none looks at the message afterwards.", "anchors": ["nmdc/msg_chat.go:51-349", "nmdc/msg_files.go:54-253", "nmdc/msg_search.go:108-494", "nmdc/msg_user.go:195-391", "nmdc/msg_user_list.go:64-130", "nmdc/msg_ping.go:110-180"]}
{"id": "C124", "title": "NMDC decoding reports an unknown encoding exactly then", "statement": "UnmarshalNMDC returns the unknown-encoding error, on which the Reader asks its OnUnknownEncoding hook for another decoder, exactly when all values before a text can be read and the text, after unescaping and decoding, is not valid UTF-8; the error carries that text, which is unique, and the message is refused. A payload that some decoder allows to store, and that a decoder defined everywhere (for example none) does not, is always reported this way, except for user commands, ADCGET and ADCSND: their paths and file identifiers in another encoding are refused with a plain error, so the hook is not asked for them.", "quantifier": "every message type, every old value of the message, every payload and every decoder", "why_tests_cant": "Tests decode a handful of payloads in one legacy encoding; none covers which text is reported or the types that replace the error.", "anchors": ["nmdc/reader.go:36-43", "nmdc/types.go:100-153", "nmdc/msg_chat.go:330-345", "nmdc/msg_files.go:60-75", "nmdc/msg_files.go:160-180", "nmdc/reader.go:285-320"]}
{"id": "C125", "title": "Texts for people and kinds of users", "statement": "ChatMessage.String gives the payload that MarshalNMDC writes without an encoder exactly when the name has none of & < > $ | and the text none of & $ |. The text of an ADC Error determines the code and the message of the status, whatever the message contains. UserType.Is holds exactly if the two values have a bit in common, so kinds of users can be combined.", "quantifier": "every chat message that can be written, every pair of statuses, every pair of user types", "why_tests_cant": "There are no tests for these methods.", "anchors": ["nmdc/msg_chat.go:24-49", "adc/types.go:52-58", "adc/user.go:33-46"]}
{"id": "C126", "title": "Callbacks that call SetDecoder", "statement": "Callbacks of the NMDC reader may call Decoder and SetDecoder of that reader. Each call of ReadMsg, ReadMsgTo or ReadMsgToAny starts with the decoder stored last, by whichever callback; a decoder returned for an unknown encoding replaces one that this callback stored. What callbacks store during a call makes no difference to the answer of that call: it is the answer with callbacks that do the same without storing. (In particular a decoder stored by a callback that drops a message does not count for the next line of the same call.)", "quantifier": "every stream of lines in any pieces, every sequence of calls, every callbacks with any state", "why_tests_cant": "Depends on when a callback runs within a call that reads several lines.", "anchors": ["nmdc/reader.go:105-114", "nmdc/reader.go:148-149", "nmdc/reader.go:291-309"]}
{"id": "C127", "title": "How long a line of the line reader stays valid", "statement": "lineproto.Reader uses one buffer for all lines and its hooks get the line itself. ReadLine returns the line that it would return with a buffer of its own for each line, however append grows the buffer; a hook that writes to the line changes what the hooks after it and the caller get, and nothing else. A returned line keeps its bytes until the next ReadLine (the documentation says: until the next Read or ReadLine), whatever other methods are called; the next line is then written over it from the beginning: all of it if it fits the buffer, else the part read before a larger buffer was allocated; a line in a buffer that was replaced stays forever.", "quantifier": "every connection, every hooks, every behaviour of append, every sequence of calls", "why_tests_cant": "Whether a kept slice changes depends on the lengths of lines and on the growth of the buffer.", "anchors": ["lineproto/reader.go:125-152", "lineproto/reader.go:176-226"]}
{"id": "C128", "title": "The message in an ErrUnexpectedCommand", "statement": "Received.Data of the ErrUnexpectedCommand that an NMDC reader returns has the arguments (or the chat text) of the line that was refused, also later. (Only until the next line is read: it points into the line buffer.)", "quantifier": "every line, every reader without raw callbacks, every behaviour of append", "why_tests_cant": "Tests print the error at once.", "anchors": ["nmdc/reader.go:219-246", "nmdc/reader.go:270-288", "lineproto/reader.go:188-226"]}
{"id": "C129", "title": "Packets read undecoded: payload and capacity", "statement": "The payload of a packet from adc.Reader.ReadPacketRaw is the part of the line that it says, and the next line is written over it. ReadPacketRaw (and with it ReadPacket, ReadInfo, ReadClient) of a reader made by NewReader never crashes in DecodePacketRaw. (True after any calls for packets of up to 2045 bytes; a feature packet of exactly 2048 bytes that ends in a cut selector crashes a new reader, whatever append does.)", "quantifier": "every connection, every sequence of calls, every behaviour of append", "why_tests_cant": "The crash needs a packet that ends where the buffer ends.", "anchors": ["adc/reader.go:34-41", "adc/reader.go:82-100", "adc/packets.go:86-132", "adc/packets.go:675-726", "lineproto/reader.go:188-226"]}
{"id": "C130", "title": "Line callbacks of the writer that write to the line", "statement": "The OnLine callbacks of lineproto.Writer get the slice given to WriteLine itself. Whatever they write to it (its length stays), the bytes that reach the connection are the line as they left it, in the order of the calls and with nothing in between; the caller finds the changed bytes in its slice, also when the line was dropped or refused, so that writing one slice twice need not write one line twice; after an error of the writer the callbacks are not asked and the slice is left alone. Callbacks that only look behave as in C09-C16.", "quantifier": "every list of callbacks, every sequence of WriteLine and Flush with slices that are used again, every connection", "why_tests_cant": "The effect is on the memory of the caller and on later calls.", "anchors": ["lineproto/writer.go:50-55", "lineproto/writer.go:183-209"]}
{"id": "C131", "title": "The keyprint of an address", "statement": "keyprint.FromURL returns the value of the first query parameter named kp, and the empty text if there is none, however names and values are written (as they are, with + for spaces or with %XX), and passes over malformed parameters. The result of FromBytes can be put into an address as it is: FromURL returns it unchanged and VerifyKeyPrint accepts it for a connection with that certificate. (Text with a semicolon is the exception: it depends on the version of Go.)", "quantifier": "every list of parameters in every spelling, every certificate", "why_tests_cant": "Spellings of a parameter are unbounded.", "anchors": ["keyprint/keyprint.go:63-66", "keyprint/keyprint.go:28-37", "keyprint/tlskp/tlskp.go:30-40"]}
{"id": "C132", "title": "NewPID is random in all its bytes", "statement": "If NewPID returns no error, all 24 bytes of the PID are from the random source. (Only for sources that fill the buffer or fail: the number of bytes read is ignored.)", "quantifier": "every answer of the random source that the contract of io.Reader allows", "why_tests_cant": "crypto/rand does not return short reads in tests.", "anchors": ["adc/types/types.go:148-152"]}
{"id": "C133", "title": "UnmarshalPacketADC on a packet in use", "statement": "p.UnmarshalPacketADC(name, data) succeeds exactly for the data of the packet grammar, and then the packet is the one read, nothing of its old contents is left. A failed call leaves the packet as it was (false for FeaturePacket: if the data ends in a broken selector, identifier and selectors are the new ones and the message the old one). A call after a failed one gives what it would have given without it. Calls panic exactly for an InfoPacket without data and for a broken selector with fewer than five bytes up to the end of the capacity.", "quantifier": "every packet, every name, all data, every capacity behind the data", "why_tests_cant": "Packets in use, data and capacity are unbounded; the tests decode into new packets only.", "anchors": ["adc/packets.go:182-192", "adc/packets.go:240-252", "adc/packets.go:315-334", "adc/packets.go:410-434", "adc/packets.go:506-530", "adc/packets.go:580-592", "adc/packets.go:675-726", "adc/packets.go:780-800"]}
{"id": "C134", "title": "Packets with messages of a program", "statement": "For every message type of a program whose MarshalADC appends to the buffer, MarshalPacketADC appends the line of the packet. MustMarshal returns what is appended and panics if the message fails; it does not for messages of the package. A packet whose message fails or panics leaves no trace: the connection, the line callbacks and the results of all other calls are those without it.", "quantifier": "every message type, every sequence of WritePacket (with all methods and streams that call it), WriteKeepAlive and Flush, every state of the writer and connection", "why_tests_cant": "Message types of programs and sequences of calls are unbounded.", "anchors": ["adc/writer.go:39-55", "adc/packets.go:158-180", "adc/marshal.go:209-272", "adc/marshal.go:275-282"]}
{"id": "C135", "title": "NMDC messages of a program", "statement": "For every message type of a program whose MarshalNMDC appends to the buffer, MarshalTo appends exactly one frame if the message has a command or a payload (without both it panics or overwrites the byte before). WriteMsg of any messages is one WriteLine for each up to the first that is not written. A message that fails or panics, whatever it does to the buffer, leaves no trace: the line writer is as before the message and later calls do what they would do without it.", "quantifier": "every message type, every message callback and line callback, every sequence of WriteMsg, WriteKeepAlive, Flush and SetEncoder, every state of the writer and connection", "why_tests_cant": "Message types of programs, callbacks and sequences of calls are unbounded; the tests write messages of the package only.", "anchors": ["nmdc/message.go:117-136", "nmdc/message.go:140-146", "nmdc/writer.go:63-84", "nmdc/writer.go:58-60"]}
{"id": "C136", "title": "SetEncoder during WriteMsg", "statement": "All messages of one WriteMsg are encoded with the encoder that was set when it began. Calls of SetEncoder while it runs, by message or line callbacks, by the messages or by another goroutine, change nothing of what it writes, returns or does otherwise; they hold from the next WriteMsg on, not for the message that a callback is asked about.", "quantifier": "every message type, all callbacks, all calls of SetEncoder at any time during a call, every state of the writer and connection", "why_tests_cant": "Interleavings of SetEncoder with a call are unbounded.", "anchors": ["nmdc/writer.go:28", "nmdc/writer.go:46-54", "nmdc/writer.go:63-84"]}
{"id": "C137", "title": "Reading NMDC messages of a program", "statement": "For messages of any Go type, ReadMsg, ReadMsgTo and ReadMsgToAny handle the lines of a connection one by one as specified: a line is stored in the message whose Type is the command of the line (for ReadMsgToAny the first such message, unless a *RawMessage comes before it), by one call of UnmarshalNMDC, or two after the error of an unknown encoding; otherwise the call fails and no message is changed. A chat line is stored in a *ChatMessage only, so a message of a program with the Type of chat messages gets no line at all. Whatever UnmarshalNMDC does (fail, panic, change the program), the next call continues with the next line. With the messages of the package this is the reader of C115.", "quantifier": "every message type (Type, UnmarshalNMDC, registered constructor), every callback including line callbacks, every sequence of calls and of SetDecoder, every line reader and stream", "why_tests_cant": "Message types of programs, callbacks, streams and sequences of calls are unbounded; the tests read messages of the package only.", "anchors": ["nmdc/reader.go:117-146", "nmdc/reader.go:148-329", "nmdc/message.go:27-40", "nmdc/message.go:60-66"]}
{"id": "C138", "title": "SetDecoder during ReadMsg", "statement": "One call of ReadMsg, ReadMsgTo or ReadMsgToAny uses the decoder that was set when it began, and after OnUnknownEncoding the decoder that gave. Calls of SetDecoder while it runs, by callbacks, by messages or by another goroutine, change nothing of what it returns, stores or does otherwise; they hold from the next call on, unless OnUnknownEncoding gives a decoder after them.", "quantifier": "every message type, all callbacks, all calls of SetDecoder at any time during a call, every stream", "why_tests_cant": "Interleavings of SetDecoder with a call are unbounded.", "anchors": ["nmdc/reader.go:104-114", "nmdc/reader.go:149", "nmdc/reader.go:291-309"]}
{"id": "C139", "title": "Unmarshal into the structures of a program", "statement": "For every structure type of a program, Unmarshal sets exactly the fields and ends exactly as specified: fields with the tag # take the words in order and the call panics when there are none left; other fields take the texts behind their tag, slices all of them, types with UnmarshalADC the first, others just one; the first field that fails ends the call, is named by the error, and the fields after it keep their values. The values are read by type: escaped text, flags, numbers in decimal (of 32 bits for the smaller types, of which the lower bits are kept), pointers, UnmarshalADC. An unexported field with a tag panics when there is a value for it. Arguments that are not pointers to structures give an error. For the messages of the package this is the function of C66-C73 and C101.", "quantifier": "every structure type (fields, tags, types, methods UnmarshalADC), all texts, all values before the call, every strconv.ParseFloat", "why_tests_cant": "Structure types, tags, methods and texts are unbounded; the tests use the messages of the package.", "anchors": ["adc/marshal.go:43-96", "adc/marshal.go:98-159"]}
{"id": "C140", "title": "Marshal of the structures of a program", "statement": "For every structure type of a program, Marshal writes exactly the bytes and ends exactly as specified: fields in order, separated by single spaces, those with tag # without a name, those with a zero value left out unless the tag says req, slices as one word for each element; the first field that fails ends the call and is named by the error. It panics for fields whose values cannot be compared and for unexported fields with a tag, and by itself never otherwise. If the methods MarshalADC append to the buffer, so does Marshal, whatever the buffer holds, so that the structures are messages in the sense of C134. For the messages of the package this is the function of C109 and C110.", "quantifier": "every structure type (fields, tags, types, methods MarshalADC by value or pointer), all values, all contents of the buffer", "why_tests_cant": "Structure types, tags, methods and values are unbounded; the tests use the messages of the package.", "anchors": ["adc/marshal.go:161-195", "adc/marshal.go:197-204", "adc/marshal.go:206-272"]}
{"id": "C141", "title": "Structures of a program that arrive unchanged", "statement": "A structure of a program whose fields with tag # stand first, whose other tags do not begin with one another, and whose values can be carried, is written by Marshal and read by Unmarshal as the same structure, also in a packet of any kind. Every text, every signed number of 16 bits or more, true, nil pointers and pointers to non-empty carried values can be carried; unsigned numbers, false in a required field, pointers to empty text and empty slices that are not nil cannot.", "quantifier": "every structure type, all values, all methods, every packet whose parts are in order", "why_tests_cant": "Structure types and values are unbounded; the tests check some messages of the package.", "anchors": ["adc/marshal.go:43-195", "adc/marshal.go:206-272", "adc/packets.go:97-145"]}
{"id": "C142", "title": "Reading ADC packets with registered types of a program", "statement": "ReadPacket, ReadPacketRaw, ReadInfo and ReadClient, in any order and with RegisterMessage between them, in callbacks and while messages are decoded, each take the next line that is no keep-alive and return what the specification says: the packet with the raw payload, decoded into a new value of the type that is registered for its name at that moment, raw if there is none, an error where decoding fails, and a panic where decoding panics or the methods belong to the pointer only. After an error or a panic the next call goes on with the next line. DecodeMessage on a packet from ReadPacketRaw gives what ReadPacket would give at that time, and does nothing on a decoded packet. DecodeMessageTo gives the payload to a message of the same name if the packet is not decoded, else fails without effect. With the types of the package this is the reader of C105; structures that can be carried (C141) arrive unchanged.", "quantifier": "all registered types and their decoding, all programs and callbacks, all states of the reader, all sequences of calls, all streams", "why_tests_cant": "Types, their Unmarshal methods, call sequences and streams are unbounded; the tests read single packets with the types of the package.", "anchors": ["adc/reader.go:25-100", "adc/packets.go:43-72", "adc/packets.go:75-84", "adc/messages.go:26-52"]}
{"id": "C143", "title": "Line callbacks that call the reader they belong to", "statement": "A callback of the line reader may call EnableZlib, Read, SetMaxLine, OnLine and Close of the reader. ReadLine then does what the calls would do after a ReadLine without callbacks: the line is returned, dropped or replaced by the error of the callback, and the next line is read by the reader as the callbacks left it (a dropped line is followed by another one). Callbacks added while a line is handled see the next line first; after Close the remaining callbacks still see the line and later calls fail. A callback that switches on compression at a certain line and drops it makes all lines of the plain and compressed sections arrive in order, also with many sections and sections that end inside of a line; inside of a section that line is an error and reading goes on. ReadLine panics only if reading or a callback panics or a callback closes the reader and drops the line.", "quantifier": "all callbacks (programs of calls of the reader), all states of the reader, all streams with any number of compressed sections", "why_tests_cant": "Programs, streams and the positions of sections in the buffer are unbounded; the tests have no callback that calls the reader.", "anchors": ["lineproto/reader.go:155-183", "lineproto/reader.go:188-226", "lineproto/reader.go:252-280"]}
{"id": "C144", "title": "NMDC callbacks and messages that use the line reader", "statement": "The callbacks of the NMDC reader and the UnmarshalNMDC methods of messages may call EnableZlib, Read, SetMaxLine, OnLine and Close of the line reader it embeds. Each call of ReadMsg, ReadMsgTo and ReadMsgToAny then reads its lines with the line reader as it was left by what ran before, and does with each line what it does otherwise (C137). In particular a program that calls EnableZlib in a callback for raw messages when $ZOn arrives gets all messages of the plain and the compressed sections in order, for any number of sections, also if a section ends inside of a message; $ZOn inside of a section is reported as an error and reading goes on.", "quantifier": "all callbacks and messages, all effects on the line reader, all sequences of calls; for $ZOn: all streams with any number of compressed sections, any division into reads", "why_tests_cant": "Callbacks, streams and sections are unbounded; no test switches compression on while messages are read.", "anchors": ["nmdc/reader.go:52-81", "nmdc/reader.go:112-329", "lineproto/reader.go:188-280"]}
{"id": "C145", "title": "ADC callbacks and messages that use the line reader", "statement": "OnKeepAlive, the line callbacks and the UnmarshalADC methods of registered messages may call EnableZlib, Read, SetMaxLine, OnLine and Close of the line reader that the ADC reader embeds. Each call of ReadPacket, ReadPacketRaw, ReadInfo and ReadClient then reads its lines with the line reader as it was left by what ran before, and answers as otherwise (C142). In particular a program whose line callback calls EnableZlib at IZON gets all packets of the plain and the compressed sections in order, for any number of sections, also if a section ends inside of a packet; IZON inside of a section is reported as an error and reading goes on. If OnKeepAlive closes the reader, the call returns the error of a closed reader.", "quantifier": "all callbacks and registered types, all effects on the line reader, all sequences of calls; for IZON: all streams with any number of compressed sections, any division into reads", "why_tests_cant": "Callbacks, streams and sections are unbounded; no test switches compression on while packets are read.", "anchors": ["adc/reader.go:18-101", "adc/messages.go:38-52", "lineproto/reader.go:188-280"]}
{"id": "C146", "title": "Line callbacks that call the writer they belong to", "statement": "A callback registered with OnLine of a line writer may call WriteLine, Write, Flush, EnableZlibLevel, DisableZlib, Err, OnLine and Close of this writer. Each of these calls has the effect it has between two calls of WriteLine, and the line itself comes behind them if the callback passes it. A callback that writes other lines before each line yields exactly these lines in order up to the first error, one that announces compression and switches it on and drops the line yields the plain announcement and then compressed lines. An error returned by WriteLine is returned by Err; if WriteLine returns nil, Err returns nil unless a call in a callback has failed. A callback that writes a line for every line never returns. After Close in a callback the remaining callbacks are asked, and passing the line panics.", "quantifier": "all callbacks (any programs of such calls, with nested WriteLine to any depth), all lines, all answers of the connection and of Timeout, all buffer sizes and compressors", "why_tests_cant": "Callbacks, the depth of nested calls and the failures of the connection are unbounded; no test has a callback that uses the writer.", "anchors": ["lineproto/writer.go:32-59", "lineproto/writer.go:61-84", "lineproto/writer.go:86-138", "lineproto/writer.go:140-209"]}
{"id": "C147", "title": "Callbacks of the message writers that write messages", "statement": "A callback registered with OnMessage of nmdc.Writer may call WriteMsg of this writer: the messages it writes come first, in order and up to the first error, and then the message itself if the callback passes it, each as Marshal encodes it. A callback registered with OnLine may too, but the line it has been given is a slice of the buffer in which WriteMsg (nmdc) and WritePacket (adc) encode: the messages it writes are written as they are, the bytes of the line are replaced by those of their encodings, as far as these are written before the buffer takes a new array (entirely, if they need no more room than the line; not at all, if the first of them asks for more than the buffer has before writing), and these bytes are what is written if the callback passes the line. Line callbacks that write lines, flush and ask for the error see the encoding of the message and have the effect they have for WriteLine. A message callback that writes a message for every message never returns.", "quantifier": "all messages and encoders (any sequence of writes, Grow and assignments to the last byte), all callbacks of these forms, all growth policies of the buffer, all answers of the connection", "why_tests_cant": "Messages, the number of nested messages and the sizes of the buffer are unbounded; whether the line is overwritten depends on the capacities of earlier messages. No test has a callback that writes.", "anchors": ["nmdc/writer.go:25-80", "nmdc/message.go:118-136", "adc/writer.go:31-50", "adc/packets.go:158-180", "adc/packets.go:288-313", "lineproto/writer.go:180-209"]}
{"id": "C148", "title": "Line callbacks that call ReadLine of the reader they belong to", "statement": "A callback registered with OnLine of a line reader may call ReadLine of this reader, and is called itself for the lines read there. These are the next lines of the input, and the next call of ReadLine goes on behind them. If the callback drops the line it was given, the same call goes on behind them; if it returns an error, ReadLine returns this error; if the input ends or fails, ReadLine returns that error if the callback does. If the callback passes the line it was given, ReadLine returns a slice of the same length, in which the lines read in the callback are over the first one (both are in r.line), at least if they fit in its memory: 2048 bytes in a new reader. So the result may be without a delimiter. Callbacks that do not call ReadLine have the effect of C143.", "quantifier": "all inputs and answers of the connection, all compressed sections, all callbacks that read a number of lines depending on the line and decide depending on what they have read, all growth policies of the memory; C148_plain: all callbacks of C143", "why_tests_cant": "Lines, chunks, the number of lines read in the callback and the memory of r.line are unbounded; no test has a callback that reads.", "anchors": ["lineproto/reader.go:125-152", "lineproto/reader.go:155-183", "lineproto/reader.go:185-226"]}
{"id": "C149", "title": "A Timeout callback that calls the writer it belongs to", "statement": "The Timeout callback of a line writer may call WriteLine, Write, Flush, EnableZlibLevel, DisableZlib, Err and Close of this writer and assign to its field Timeout. If it makes calls (any, whatever they return) when it is called with true and others when it is called with false, and none when it is called by these calls, WriteLine and Flush make the former, then do their own work, then make the latter; the result is that of their own work, so an error of a call made with false is returned by the next call only. If the callback refuses, its error is returned; if it has closed the writer, the program panics. With a callback that calls Flush when it is called with false nothing is left in the buffer after WriteLine if Err is nil. An error returned by WriteLine or Flush is returned by Err, whatever the callback does. Write flushes first, but a line written by the callback with false stays in the buffer, behind the bytes. A callback that calls Flush or WriteLine each time never returns. A callback that sets Timeout to nil when it is called with true makes WriteLine and Flush panic behind their work (the deferred call is evaluated then); if it sets another function, this one is called with false. For any callback, any method and any writer, each call of a method made by the callback is a call as any other: it starts from the state the calls before it left, its result is given to the callback, and the work of the outer method starts from the state the last one left. A callback that calls nothing gives the writer of C11.", "quantifier": "all writers, all connections and compressors, all lists of calls; C149_plain: all line callbacks and answers; C149_sticky, C149_call: all callbacks", "why_tests_cant": "Programs in callbacks, their number of calls and the answers of the connection are unbounded; no test has a Timeout callback that calls the writer.", "anchors": ["lineproto/writer.go:32-47", "lineproto/writer.go:67-84", "lineproto/writer.go:92-115", "lineproto/writer.go:141-166", "lineproto/writer.go:170-209"]}
{"id": "C150", "title": "Line callbacks and a Timeout callback that all call the writer", "statement": "The line callbacks and the Timeout callback of a line writer may all call WriteLine, Write, Flush, EnableZlibLevel, DisableZlib, Err, OnLine and Close of this writer and assign to its field Timeout, so that they are run by each other. Each call made by a callback is a call as any other: it starts from the state the calls before it left, its result is given to the callback, and what the outer method does next starts from the state the callback left. WriteLine asks the line callbacks the writer has when it is called (one added meanwhile is asked for the next line), then calls the Timeout function the writer has then (one set by a line callback is called for this line), does its own work without looking at Err again, and calls the Timeout function that was there before this work; the result is that of its own work. A panic of a callback, a writer closed by a callback before the own work, or Timeout set to nil by Timeout(true) make the method panic. What a call does is determined; a call for which nothing is told never returns, as with a line callback that calls Flush and a Timeout callback that writes a line. An error returned by WriteLine or Flush is returned by Err, whatever the callbacks do. With line callbacks that call nothing it is the writer of C149. Without a Timeout callback WriteLine is that of C146.", "quantifier": "all callbacks (programs), all calls, all writers, connections and compressors", "why_tests_cant": "Programs in callbacks, the depth of their calls and the answers of the connection are unbounded; no test has a callback of a writer that calls it.", "anchors": ["lineproto/writer.go:32-60", "lineproto/writer.go:67-84", "lineproto/writer.go:92-115", "lineproto/writer.go:141-166", "lineproto/writer.go:170-209"]}
