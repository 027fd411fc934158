{"id": "C01", "title": "Fixed-width integer codecs round-trip and touch only their bytes", "statement": "On a little-endian host, writing a 16/32/64-bit value with the big-endian (or little-endian) codec at the front of a buffer and reading it back with the same codec returns the value; the bytes written are exactly the most-significant-first (least-significant-first) base-256 digits; every byte after the field is unchanged; the call panics exactly when the buffer is shorter than the field.", "quantifier": "every value of each width, every buffer of every length, every previous content", "why_tests_cant": "2^64 values times unbounded buffers; tests only sample", "anchors": ["binary/be-in-le-cpu.go: bigEndian.*", "binary/le-in-le-cpu.go: littleEndian.*"]}
{"id": "C02", "title": "Codec wire order does not depend on the host CPU", "statement": "A value written with the big-endian codec on a little-endian host is read back unchanged by the big-endian codec on a big-endian host (and the same for the little-endian codec).", "quantifier": "every value, both host byte orders", "why_tests_cant": "needs two architectures; unit tests run on one host only", "anchors": ["binary/be-in-be-cpu.go", "binary/le-in-be-cpu.go", "binary/be-in-le-cpu.go", "binary/le-in-le-cpu.go"]}
{"id": "C03", "title": "8/16/32-bit decimal parsing accepts exactly the representable numerals", "statement": "Parsing a string as an unsigned 8/16/32-bit decimal succeeds exactly when the string is 1..3 / 1..5 / 1..10 ASCII digits denoting a number that fits, and then stores that number; in every other case an error is returned (empty, bad character or out of range) and the receiver keeps its old value.", "quantifier": "every byte string of every length, every old receiver value", "why_tests_cant": "unbounded set of strings, boundary behaviour at every width", "anchors": ["math/integer/unsigned-8.go", "math/integer/unsigned-16.go", "math/integer/unsigned-32.go: FromString_Base10"]}
{"id": "C04", "title": "64-bit decimal parsing never returns a wrong number", "statement": "Parsing a string as an unsigned 64-bit decimal succeeds exactly when it is a numeral whose value is below 2^64 and then stores that value; otherwise it reports an error.", "quantifier": "every byte string", "why_tests_cant": "overflow happens for a few values out of 10^20; tests pick neighbours of the maximum", "anchors": ["math/integer/unsigned-64.go: FromString_Base10"]}
{"id": "C05", "title": "Decimal formatting and parsing are inverse", "statement": "For every 8/16/32/64-bit unsigned number, formatting it in base ten and parsing the result gives the number back.", "quantifier": "every value of each width", "why_tests_cant": "2^64 values", "anchors": ["math/integer/unsigned-8.go", "math/integer/unsigned-64.go: ToString, FromString_Base10"]}
{"id": "C06", "title": "Pending timers form a 4-ary min-heap that loses nothing", "statement": "After any sequence of insertions and removals at arbitrary positions, the pending set is exactly the multiset inserted minus removed, every entry is due no earlier than its parent, and the first entry is due no later than every other entry.", "quantifier": "every sequence of add/delete operations, every due time, every heap size", "why_tests_cant": "heap bugs show only for particular shapes and sizes; the number of shapes is unbounded", "anchors": ["timer/timing-heap.go: SiftUpTimer, SiftDownTimer, DeleteTimer, DeleteTimer0"]}
{"id": "C07", "title": "Due-time computation saturates instead of wrapping", "statement": "For every delay and every current time the due time is now+delay when that fits in a signed 64-bit number and the largest signed 64-bit number otherwise; non-positive delays mean now; hence a longer delay is never due earlier.", "quantifier": "every delay and clock value", "why_tests_cant": "overflow region is far from practical test inputs", "anchors": ["timer/util.go: when"]}
{"id": "C08", "title": "Timer life cycle: a stopped timer never fires, a started timer is not lost", "statement": "In every interleaving-free history of start/stop/reset/run calls on a set of timers, a callback runs only for a timer that was started or reset and not stopped since, not before its due time, and stopping reports whether the timer was still pending.", "quantifier": "every history of operations on every set of timers", "why_tests_cant": "state machine with ten states; sequences are unbounded", "anchors": ["timer/timer-async.go: Init, Start, Stop, Reset", "timer/timing.go: AddTimer, runTimer, runOneTimer"]}
{"id": "C09", "title": "Adding a timer while stopped timers are pending never crashes or blocks", "statement": "Adding a timer to a scheduler whose pending set contains stopped or rescheduled timers completes without panic and without waiting on a lock the caller holds.", "quantifier": "every scheduler state reachable by start/stop/reset", "why_tests_cant": "depends on the particular status of the earliest timer when the next one is added", "anchors": ["timer/timing.go: AddTimer, cleanTimers"]}
{"id": "C10", "title": "Periodic timers advance by whole periods into the future", "statement": "When a periodic timer runs late by any amount, its next due time is strictly later than now and differs from the old due time by a whole number of periods; and the scheduler's ordering key is updated with it.", "quantifier": "every period, due time and lateness", "why_tests_cant": "lateness of more than one period needs a stalled scheduler", "anchors": ["timer/timing.go: runOneTimer"]}
{"id": "C11", "title": "A limited ticker ticks exactly the configured number of times", "statement": "A ticker limited to n ticks delivers exactly n ticks and then stops.", "quantifier": "every n", "why_tests_cant": "needs every n and exact count", "anchors": ["timer/tick-limit.go: LimitTicker.TimerHandler"]}
{"id": "C12", "title": "Timing wheel fires each entry once after its delay and never out of range", "statement": "Adding a timer with any delay no longer than the wheel never accesses a slot outside the wheel and the timer fires exactly when the wheel has advanced by delay/interval ticks.", "quantifier": "every delay, interval, wheel size and current position", "why_tests_cant": "failure depends on the current position of the wheel", "anchors": ["timer/timing-wheel/timing-wheel.go"]}
{"id": "C13", "title": "Syllab fixed-size fields round-trip without interfering", "statement": "Writing any integer field at any in-range offset of a syllab frame and reading it back gives the value; bytes outside the field are unchanged; so fields at disjoint offsets can be written in any order.", "quantifier": "every offset, value and buffer", "why_tests_cant": "unbounded offsets and values", "anchors": ["syllab/encode.go", "syllab/decode-unsafe.go"]}
{"id": "C14", "title": "Syllab dynamically sized fields round-trip", "statement": "Writing a byte array, string, integer array or array of strings into stack and heap areas and reading it back returns the same content, the returned heap address is the next free heap byte, and earlier fields keep their content.", "quantifier": "every content, every number of fields, every frame layout with sufficient room", "why_tests_cant": "nested unbounded structures", "anchors": ["syllab/encode.go: SetByteArray, SetString, SetUInt16Array.., SetStringArray", "syllab/decode-safe.go", "syllab/decode-unsafe.go"]}
{"id": "C15", "title": "Syllab booleans, fixed arrays and complex numbers round-trip on reused frames", "statement": "Writing a boolean, fixed-size array or complex number over any old frame content and reading it back gives the same value.", "quantifier": "every value and every previous frame content", "why_tests_cant": "only fails on frames that are not zeroed, or through overlapping halves", "anchors": ["syllab/encode.go: SetBool, SetComplex64, SetComplex128, SetFixedByteArray", "syllab/decode-unsafe.go: GetBool, GetComplex64, GetFixedByteArray"]}
{"id": "C16", "title": "JSON numbers and strings survive encode-decode", "statement": "Encoding a field value with the JSON encoder and decoding it returns the same value, and the encoded text is a JSON token.", "quantifier": "every unsigned/signed integer and every byte string", "why_tests_cant": "unbounded strings; control characters and quotes are rarely tested", "anchors": ["json/encode.go", "json/decode.go", "json/decode-minified.go"]}
{"id": "C17", "title": "Percent-escaping round-trips and emits only safe characters", "statement": "For every byte string and every component kind (path, path segment, user info, query component, fragment) unescaping the escaped text succeeds and returns the original, and the escaped text contains only characters allowed literally in that component, percent signs followed by two hex digits, and (query only) plus signs.", "quantifier": "every byte string, every component", "why_tests_cant": "256^n inputs", "anchors": ["net/uri/escape.go: Escape, Unescape, shouldEscape"]}
{"id": "C18", "title": "Unescape rejects exactly malformed percent sequences and never panics", "statement": "Unescape fails exactly when some percent sign is not followed by two hex digits or a component rule forbids the octet; otherwise every escape is replaced by its octet and every other byte kept (plus becomes space in queries).", "quantifier": "every byte string, every component", "why_tests_cant": "truncated escapes at every position", "anchors": ["net/uri/escape.go: Unescape, ishex, unhex"]}
{"id": "C19", "title": "URI parse and serialise are inverse", "statement": "Serialising the components of a request target and parsing the text gives back the same scheme, authority, path and query.", "quantifier": "every combination of component strings free of the delimiters reserved for later components", "why_tests_cant": "combinatorial component presence and unbounded text", "anchors": ["net/uri/uri.go: UnmarshalFromString, marshalTo, Marshal"]}
{"id": "C20", "title": "Query parameters behave as an ordered multimap", "statement": "After any sequence of add/set/delete calls, get returns the first value of a name, has tells presence, delete removes all values of that name and no other, and serialise-then-parse returns the same multimap.", "quantifier": "every operation history, every key and value", "why_tests_cant": "unbounded histories", "anchors": ["net/uri/uri-query.go"]}
{"id": "C21", "title": "HTTP header behaves as an ordered multimap", "statement": "After any sequence of add/set/delete calls on a header, get returns the value the multimap semantics prescribes: add appends, set replaces, delete removes.", "quantifier": "every operation history", "why_tests_cant": "unbounded histories and aliasing between lookups and storage", "anchors": ["net/http/header.go"]}
{"id": "C22", "title": "Codings are read back from the last", "statement": "Reading a Content-Encoding or Transfer-Encoding list from its end returns the last coding whole and leaves the codings before it unchanged.", "quantifier": "every list of codings", "why_tests_cant": "unbounded lists and coding names", "anchors": ["net/http/header-content-encoding.go: Last", "net/http/header-transfer-encoding.go: Last"]}
{"id": "C23", "title": "Set-Cookie and Cookie text round-trips", "statement": "Serialising a cookie with any combination of attributes and parsing it returns the same attributes.", "quantifier": "every attribute combination and every legal attribute text", "why_tests_cant": "2^7 attribute combinations times unbounded text", "anchors": ["net/http/header-cookie.go", "net/http/header-set-cookie.go"]}
{"id": "C24", "title": "Cookie sanitising emits only legal characters and keeps legal input", "statement": "Sanitised cookie names/values/paths contain only legal octets, legal input is returned unchanged and sanitising twice equals sanitising once.", "quantifier": "every byte string", "why_tests_cant": "256^n inputs", "anchors": ["net/http/header-cookie.go", "net/http/header-set-cookie.go"]}
{"id": "C25", "title": "Accept preferences are ordered by quality, stably", "statement": "The parsed list of media ranges is a permutation of the input, sorted by descending quality, with equal qualities kept in input order.", "quantifier": "every list of media ranges and qualities", "why_tests_cant": "unbounded lists, stability shows only with ties", "anchors": ["net/http/header-accept.go: insertMime, sortMimes"]}
{"id": "C26", "title": "Object pool never exceeds its limit and hands out each object once", "statement": "In every history of get/put/clean/close calls the number of live objects is at most the limit, an object is never handed to two holders at once, and objects are returned most-recently-returned first.", "quantifier": "every history of pool operations", "why_tests_cant": "unbounded histories", "anchors": ["pool/lifo.go"]}
{"id": "C27", "title": "Flat buffer reads return what was written", "statement": "In every history of writes and reads, the concatenation of bytes read is a prefix of the concatenation of bytes written, and reading everything returns everything.", "quantifier": "every history of read/write calls with any sizes", "why_tests_cant": "unbounded histories", "anchors": ["buffer/flat.go"]}
{"id": "C28", "title": "Duration split and join are inverse", "statement": "Converting nanoseconds to seconds plus remainder and back is the identity, and the remainder is less than a second in absolute value.", "quantifier": "every signed 64-bit duration", "why_tests_cant": "2^64 values", "anchors": ["time/duration/nano-second.go", "time/duration/second.go"]}
{"id": "C29", "title": "Calendar fields are periodic and correct", "statement": "The weekday computed from Unix seconds is that of the proleptic calendar (1970-01-01 is a Thursday), for all times; the hour-of-day bit matches the published hour constants.", "quantifier": "every time", "why_tests_cant": "all 64-bit times, negative times", "anchors": ["time/utc/weekday.go", "time/utc/dayhour.go", "time/earth/dayhour.go"]}
{"id": "C30", "title": "Times are ordered: Pass is a strict order and Add moves forward", "statement": "Comparing two (seconds, nanoseconds) instants is a strict total order, adding a non-negative duration never yields an earlier instant, and elapsed time between instants is exact.", "quantifier": "every pair of instants and duration", "why_tests_cant": "carry between the two components", "anchors": ["time/unix/time.go"]}
{"id": "C31", "title": "TCP segment fields: set then get, other fields intact", "statement": "Writing any header field of a TCP segment and reading it back gives the value and leaves every other field and the payload unchanged.", "quantifier": "every segment of sufficient length, every field value, every previous content", "why_tests_cant": "bit fields sharing bytes on dirty buffers", "anchors": ["net/tcp/segment.go"]}
{"id": "C32", "title": "A TCP segment accepted by the checker can be read without panic", "statement": "Every byte string accepted by the segment checker can have all its accessors called without panic and header, options and payload partition the bytes.", "quantifier": "every byte string", "why_tests_cant": "malformed packets come from the network", "anchors": ["net/tcp/segment.go: CheckSegment, Options, Payload"]}
{"id": "C33", "title": "TCP option processing terminates on every option list", "statement": "Processing the options of any segment terminates and visits every option of a well-formed list in order.", "quantifier": "every byte string as options", "why_tests_cant": "hang on particular option kinds", "anchors": ["net/tcp/stream-internal.go: handleOptions", "net/tcp/option.go", "net/tcp/option-mss.go"]}
{"id": "C34", "title": "TCP stream follows the RFC connection state machine and delivers bytes in order", "statement": "A server stream that receives SYN then ACK becomes established; the bytes delivered to the reader are the payloads in sequence order without gaps or duplicates.", "quantifier": "every sequence of received segments", "why_tests_cant": "unbounded histories of segments", "anchors": ["net/tcp/stream.go: Receive", "net/tcp/stream-internal.go", "net/tcp/stream-recv.go"]}
{"id": "C35", "title": "IPv4/IPv6/UDP header fields: set then get, other fields intact", "statement": "Writing any header field of an IPv4, IPv6 or UDP packet and reading it back gives the value and leaves every other field unchanged.", "quantifier": "every packet of sufficient length, every value, every previous content", "why_tests_cant": "bit fields sharing bytes on dirty buffers", "anchors": ["net/ipv4/packet.go", "net/ipv6/packet.go", "net/udp/packet.go"]}
{"id": "C36", "title": "An IP/UDP packet accepted by the checker can be read without panic", "statement": "Every byte string accepted by the packet checker can have all its accessors called without panic.", "quantifier": "every byte string", "why_tests_cant": "malformed packets come from the network", "anchors": ["net/ipv4/packet.go: CheckPacket, Payload", "net/ipv6/packet.go", "net/udp/packet.go"]}
{"id": "C37", "title": "IPv4 textual addresses round-trip and bad text is rejected", "statement": "Parsing the text of any IPv4 address returns the address; text that is not four decimal octets without leading zeros is reported as an error.", "quantifier": "every address and every byte string", "why_tests_cant": "2^32 addresses and unbounded strings", "anchors": ["net/ipv4/addr.go: ToString, FromString"]}
{"id": "C38", "title": "IPv6 textual addresses round-trip", "statement": "Formatting any IPv6 address never panics and parsing the text returns the address; parsing any valid text sets all sixteen bytes.", "quantifier": "every address and every text", "why_tests_cant": "2^128 addresses", "anchors": ["net/ipv6/addr.go: ToString, FromString"]}
{"id": "C39", "title": "GP frame header fields and addresses", "statement": "Every 33-byte GP frame with the right type is accepted and nothing else; source and destination addresses are disjoint, and address components written are read back in network order.", "quantifier": "every byte string, every address", "why_tests_cant": "unbounded inputs", "anchors": ["net/gp/frame.go", "net/gp/address.go"]}
{"id": "C40", "title": "Switch-port frames: forwarding records the reverse route and stops at the last hop", "statement": "Forwarding a unicast frame with n hops through n switches advances the hop pointer by one each time, overwrites each used port number by the receiving port, and reports the end at exactly the n-th switch; no index is out of range for any frame the checker accepts.", "quantifier": "every path length and path, every frame", "why_tests_cant": "path lengths up to 255 with byte arithmetic", "anchors": ["net/chapar/frame.go", "net/chapar/path.go"]}
{"id": "C41", "title": "Reversing a switch path gives the reverse path", "statement": "Copying a path in reverse yields the path with the same length and the ports in opposite order, and doing it twice gives the original.", "quantifier": "every path of every length", "why_tests_cant": "byte-sized loop counters at the boundaries", "anchors": ["net/chapar/path.go: CopyReverseTo"]}
{"id": "C42", "title": "Frame dispatch terminates on every received packet", "statement": "Processing the frames of any received packet terminates with either success or an error, and every step consumes at least one byte.", "quantifier": "every byte string", "why_tests_cant": "adversarial packets", "anchors": ["net/frames.go: HandleFrames"]}
{"id": "C43", "title": "Time-ordered identifiers keep their timestamp and their random part", "statement": "The timestamp written into an identifier is read back, the random part is preserved, and two identifiers created at the same time with different random parts differ.", "quantifier": "every timestamp and random part, all three identifier sizes", "why_tests_cant": "collisions depend on time and randomness", "anchors": ["identifier/8byte/uuid.go", "identifier/uuid-time-16byte/uuid.go", "identifier/32byte/uuid.go"]}
{"id": "C44", "title": "RFC 4122 identifiers carry version and variant and print canonically", "statement": "A random UUID has version 4 and the RFC variant whatever the random bytes, its text has 36 characters with dashes at the fixed places, distinct UUIDs have distinct texts, and parsing the text returns the UUID.", "quantifier": "every 16 random bytes", "why_tests_cant": "2^128 values", "anchors": ["identifier/rfc-4122/uuid.go", "identifier/rfc-4122/utility.go"]}
{"id": "C45", "title": "Luhn check accepts exactly valid numbers and catches every single-digit error", "statement": "The check accepts a digit string exactly when its Luhn sum is a multiple of ten; changing any one digit of an accepted number makes it rejected, and so does swapping two adjacent digits other than 0 and 9.", "quantifier": "every digit string of every length, every position, every digit change", "why_tests_cant": "unbounded strings", "anchors": ["validators/luhn-algorithm.go: LuhnAlgorithm"]}
{"id": "C46", "title": "Appending the computed Luhn digit gives an accepted number", "statement": "For every digit string, the check digit computed for it makes the number accepted.", "quantifier": "every digit string of every length", "why_tests_cant": "parity of the length matters", "anchors": ["validators/luhn-algorithm.go: LuhnAlgorithmChecksum"]}
{"id": "C47", "title": "Command-line flags parse as documented", "statement": "-name=value, --name=value and -name value set the named field to the value, boolean flags need no value, parsing stops at the first non-flag argument or an error, unknown flags are errors, and fields not mentioned keep their value.", "quantifier": "every argument list and every set of declared fields", "why_tests_cant": "unbounded argument lists", "anchors": ["operation/command/flag.go", "operation/command/cla.go"]}
{"id": "C48", "title": "Generated command-line arguments parse back", "statement": "Turning a command's field values into arguments and parsing them gives the same values.", "quantifier": "every field list and value", "why_tests_cant": "unbounded", "anchors": ["operation/command/cla.go: ToCLA, FromCLA"]}
{"id": "C49", "title": "Service registry: lookup returns what was registered", "statement": "After any sequence of registrations and deletions, looking a service up by id or media type returns the one registered under it, duplicates are refused, deletion removes just that service, and the listing contains exactly the registered services in order.", "quantifier": "every history of register/delete", "why_tests_cant": "unbounded histories", "anchors": ["operation/services/services.go"]}
{"id": "C50", "title": "Error registry: lookup by id returns the registered error", "statement": "After any sequence of register/unregister calls, lookup by id returns the error registered last under the id (first in development mode), zero gives nothing, unknown ids give the not-found error.", "quantifier": "every history", "why_tests_cant": "unbounded histories", "anchors": ["errors/errors.go"]}
{"id": "C51", "title": "Event target delivers to listeners in registration order", "statement": "Dispatching an event calls exactly the listeners currently registered, each once per registration, in registration order; removing a listener removes one registration and keeps the order of the others.", "quantifier": "every history of add/remove/dispatch", "why_tests_cant": "unbounded histories", "anchors": ["event/target.go"]}
{"id": "C52", "title": "Listeners may register or remove listeners while being called", "statement": "A listener that adds or removes listeners, or dispatches another event, from inside its callback does not block forever.", "quantifier": "every listener behaviour", "why_tests_cant": "re-entrancy under lock", "anchors": ["event/target.go"]}
{"id": "C53", "title": "Editing a file at several places replaces exactly those places", "statement": "Applying a list of replacements with increasing non-overlapping ranges of the original content yields the original with each range replaced by its text and everything else unchanged, whether texts grow or shrink.", "quantifier": "every content and every such list", "why_tests_cant": "offset drift across edits", "anchors": ["os/default/file.go: ReplaceLocation", "file/file.go"]}
{"id": "C54", "title": "File path decomposition", "statement": "Splitting a path into parts and joining them gives the path back; parts contain no separator; the name splits into base and extension whose concatenation with the dot is the name.", "quantifier": "every path text", "why_tests_cant": "unbounded text", "anchors": ["file/uri.go"]}
{"id": "C55", "title": "Directory lookup finds created files", "statement": "A file created in a directory is found again by name and by path, at every depth.", "quantifier": "every tree and path", "why_tests_cant": "unbounded trees", "anchors": ["os/default/file-directory.go"]}
{"id": "C56", "title": "User type check is set inclusion", "statement": "A user type passes the check against a base type exactly when every role bit of the user is in the base; the check is reflexive, transitive and monotone.", "quantifier": "every pair of 8-bit masks", "why_tests_cant": "all combinations and chains", "anchors": ["user/user-type.go: CheckUserType"]}
{"id": "C57", "title": "Socket read and write deadlines are independent", "statement": "Setting a read (write) timeout changes only the read (write) deadline, a negative timeout removes the deadline, and a timeout event is reported only for a deadline that was set.", "quantifier": "every history of timeout settings", "why_tests_cant": "unbounded histories, timers", "anchors": ["net/socket-timing.go: SetReadTimeout, SetWriteTimeout, TimerHandler"]}
{"id": "C58", "title": "TCP keep-alive probes an idle peer a bounded number of times", "statement": "When keep-alive is enabled and nothing is received, probes are sent at the configured interval, at most the configured number, then the connection is closed; any received segment restarts the idle period; disabled keep-alive never probes.", "quantifier": "every schedule of timer checks and received segments", "why_tests_cant": "unbounded timed histories", "anchors": ["net/tcp/stream-timing-keep_alive.go: CheckInterval"]}
{"id": "C59", "title": "Media type decomposition", "statement": "Parsing a media type text gives main type and sub type that rejoin with a slash to the prefix of the text, and never panics.", "quantifier": "every text", "why_tests_cant": "unbounded", "anchors": ["mediatype/media-type.go"]}
{"id": "C60", "title": "Error chains and equality", "statement": "Error equality is an equivalence relation on registered errors and a chained error still compares to the wrapped one.", "quantifier": "every chain", "why_tests_cant": "unbounded chain depth", "anchors": ["error/error.go", "error/chain-error.go", "error/util.go"]}
{"id": "C61", "title": "Base64 of identifiers round-trips", "statement": "The textual id of a 32-byte identifier decodes to the id; decoding arbitrary text never writes outside the id.", "quantifier": "every id and every text", "why_tests_cant": "2^64 ids and unbounded text", "anchors": ["identifier/32byte/uuid.go: IDasString, IDfromString"]}
{"id": "C62", "title": "Malformed JSON cannot hang or crash the decoders", "statement": "Whatever bytes the JSON decoders are given, every decode method returns (with a value or an error) and leaves a suffix of the input to read.", "quantifier": "every byte string and decoder state", "why_tests_cant": "malformed inputs are unbounded in number; the failing ones depend on state left by earlier reads", "anchors": ["json/decode.go", "json/decode-minified.go"]}
{"id": "C63", "title": "Query text parsing always ends and rejects semicolons", "statement": "Parsing any query text terminates without panic; settings containing a raw semicolon are reported as errors and others are not.", "quantifier": "every byte string", "why_tests_cant": "unbounded texts", "anchors": ["net/uri/uri-query.go: FromString", "net/uri/const.go: sign_Semicolon"]}
{"id": "C64", "title": "Serialised URI reflects the current components", "statement": "Marshal returns the text of the components currently set.", "quantifier": "every sequence of set, parse, reset and marshal calls", "why_tests_cant": "depends on the history of calls", "anchors": ["net/uri/uri.go: Marshal", "net/uri/uri.go: Reinit"]}
{"id": "C65", "title": "Parsing a request target never panics", "statement": "Parsing any request target returns; it never panics.", "quantifier": "every byte string", "why_tests_cant": "unbounded inputs; only rare shapes fail", "anchors": ["net/uri/uri.go: UnmarshalFromString"]}
{"id": "C66", "title": "Authority splits into user information, host and port", "statement": "user:password@host:port is split into its four parts.", "quantifier": "every authority text", "why_tests_cant": "unbounded texts", "anchors": ["net/uri/uri-authority.go: Init", "net/uri/uri-user_Information.go: Init"]}
{"id": "C67", "title": "Content type of a message is read without crashing", "statement": "For every header the content type is read without crashing: type, subtype and the charset or boundary parameter are those of the line.", "quantifier": "every header content", "why_tests_cant": "unbounded texts", "anchors": ["net/http/header-content-type.go: ContentType, FromString"]}
{"id": "C68", "title": "Numbers and modes written to headers are read back", "statement": "Content length, max-age and same-site written with the setters are returned by the getters; a status code is returned exactly for decimal numerals below 65536.", "quantifier": "every 64-bit length, every max-age, every same-site mode, every status text", "why_tests_cant": "2^64 values and unbounded texts", "anchors": ["net/http/header-content-length.go", "net/http/header-set-cookie.go: SetMaxAge, GetMaxAge, SetSameSite, GetSameSite", "net/http/response.go: GetStatusCode"]}
{"id": "C69", "title": "Reading a received Cookie line never crashes", "statement": "No text received as Cookie line makes the reader crash.", "quantifier": "every text", "why_tests_cant": "unbounded texts", "anchors": ["net/http/header-cookie.go: UnmarshalFrom, Next"]}
{"id": "C70", "title": "Monotonic times order, add and subtract consistently", "statement": "Comparing monotonic times is a strict total order, adding a positive duration gives a later time, the elapsed time between a time and the time plus a duration is that duration even when the counter wraps, and the seconds and nanoseconds-in-second read from a time are its quotient and remainder by a second.", "quantifier": "every pair of 64-bit times and every duration", "why_tests_cant": "2^128 pairs, wrap-around", "anchors": ["time/monotonic/time.go: Time"]}
{"id": "C71", "title": "Counting elapsed periods counts whole periods", "statement": "The number of periods elapsed since 1970 is the time in nanoseconds divided by the period, rounded down, for periods given in seconds or in nanoseconds.", "quantifier": "every time and every positive period", "why_tests_cant": "the division is done separately on the two components", "anchors": ["time/unix/time.go: ElapsedByNanoSecond, ElapsedBySecond"]}
{"id": "C72", "title": "Whole minutes, hours, days and weeks", "statement": "Converting seconds or nanoseconds to minutes, hours, days or weeks gives the number of whole units.", "quantifier": "every non-negative time or duration", "why_tests_cant": "all 64-bit values", "anchors": ["time/earth: Minute, Hour, Day, Week", "time/utc/time.go: MinuteElapsed, HourElapsed, DayElapsed, WeekElapsed", "time/unix/time.go: HourElapsed, DayElapsed"]}
{"id": "C73", "title": "The atomic time is atomic", "statement": "Whatever the interleaving, a reader sees a time some writer stored, concurrent stores leave one of the stored times, and a compare-and-swap that reports failure leaves the time unchanged.", "quantifier": "every interleaving of stores, reads and compare-and-swaps", "why_tests_cant": "schedules", "anchors": ["time/unix/atomic.go: Atomic"]}
{"id": "C74", "title": "Pooled objects are closed exactly once, and only when nobody holds them", "statement": "An object passed to the close function is never handed out afterwards, is not held, and is closed only once; closing the pool closes every object in it; objects put back after closing are closed.", "quantifier": "every history of pool operations, with and without races with Close", "why_tests_cant": "unbounded histories, schedules", "anchors": ["pool/lifo.go: Close, Clean, Put, Get"]}
{"id": "C75", "title": "Growing, setting and resetting a flat buffer", "statement": "Growing keeps contents and read position and provides the requested room; growing the length returns the old length and adds exactly that many bytes; setting new contents makes them readable; resetting empties the buffer and keeps its storage.", "quantifier": "every buffer state and size", "why_tests_cant": "unbounded sizes and states", "anchors": ["buffer/flat.go: Grow, GrowLen, Set, Reset"]}
{"id": "C76", "title": "IP/UDP checkers accept exactly the valid packets and expose the described payload", "statement": "Every packet whose header lengths are consistent is accepted, every other is refused, and the payload accessor returns the bytes the header's length describes.", "quantifier": "all byte strings", "why_tests_cant": "Every combination of length fields and buffer length.", "anchors": ["net/ipv4/packet.go: CheckPacket, Payload", "net/udp/packet.go: CheckPacket, Payload"]}
{"id": "C77", "title": "A stream's timer is started when keep-alive or delayed acknowledgement asks for it", "statement": "When some timing part of a stream asks to be called after a positive delay, the stream's timer is started with the smallest such delay.", "quantifier": "all delays asked by the parts", "why_tests_cant": "All combinations of delays.", "anchors": ["net/tcp/stream-timing.go: Init, TimerHandler"]}
{"id": "C78", "title": "IPv6 address classes match RFC 4291", "statement": "For every IPv6 address the class predicates (unspecified, loopback, multicast, interface-local and link-local multicast, link-local unicast, global unicast) answer exactly as the bit prefixes of RFC 4291 say, and setting an address from an IPv4 one gives the mapped form whatever it held.", "quantifier": "every 16-byte address and every 4-byte address", "why_tests_cant": "2^128 addresses", "anchors": ["net/ipv6/addr.go: IsUnspecified, IsLoopback, IsMulticast, IsInterfaceLocalMulticast, IsLinkLocalMulticast, IsLinkLocalUnicast, IsGlobalUnicast, FromIPv4"]}
{"id": "C79", "title": "Connection paths stay distinct and switching uses the chosen one", "statement": "Registering alternative paths keeps all known paths of a connection distinct and adds exactly the new ones at the end; switching to an alternative makes it active; a connection made from a frame has the frame's path; a frame written for a connection carries its path and reports its length.", "quantifier": "every connection, every sequence of registrations, every index and every frame", "why_tests_cant": "unbounded histories of registrations and 255-byte paths", "anchors": ["net/chapar/connection.go: Init, setAlternativePath, changePath, WriteFrame"]}
{"id": "C80", "title": "Visiting all switch ports terminates", "statement": "Initialising a multiplexer and broadcasting a frame visit every port number once and end.", "quantifier": "every number of rounds", "why_tests_cant": "non-termination cannot be observed by a test", "anchors": ["net/chapar/mux.go: Init, sendBroadcast"]}
{"id": "C81", "title": "User identifiers keep type and creation time", "statement": "The identifier made for a user returns the user type, creation time and random part it was made with.", "quantifier": "every user type, clock value and random bytes", "why_tests_cant": "Types, clock values and random bytes range over all their values; a test sees a few.", "anchors": ["user/user.go: NewID, Type, ID"]}
{"id": "C82", "title": "Command dispatch", "statement": "Serving command-line arguments runs the first command of each level that carries the argument as name or abbreviation with the remaining arguments, an alias or an unknown name is reported, and the call never crashes; the printed command path is the names from the root.", "quantifier": "every command tree and argument list", "why_tests_cant": "The command tree and the arguments are unbounded.", "anchors": ["operation/command/serve.go: ServeCLA, CommandPath, Root", "operation/command/command.go: SubCommand"]}
{"id": "C83", "title": "Converting errors to Go errors and back", "statement": "Converting an error to a Go error keeps its summary, nil stays nil, and converting a Go error to an error never panics.", "quantifier": "every error and every Go error", "why_tests_cant": "ranges over all error values, including those of other libraries", "anchors": ["error/util.go: ToGoError, ToError"]}
{"id": "C84", "title": "A listener added with the Once option is called at most once", "statement": "A listener that was added with the Once option is called by the first dispatch after it was added and by no later one.", "quantifier": "every listener and any number of dispatches", "why_tests_cant": "unbounded histories", "anchors": ["event/options.go: Options.Once", "event/target.go: DispatchEvent"]}
{"id": "C85", "title": "Unregistering an error removes just that error", "statement": "After unregistering an error it is not found by id or media type, every other error is still found as before.", "quantifier": "every registry state and every pair of errors", "why_tests_cant": "unbounded histories", "anchors": ["errors/errors.go: UnRegister"]}
{"id": "C86", "title": "Connection counters tell the truth under every interleaving", "statement": "However the goroutines that report connection state changes interleave, when no report is in progress each counter (open, in use, idle, waiting, closed) is the number of connections the reports so far put in that state (as a signed 64-bit number), no report ever blocks, and at any moment the books are off by at most the number of reports in progress.", "quantifier": "every number of goroutines, every list of reports per goroutine, every interleaving of their atomic steps", "why_tests_cant": "the number of interleavings of atomic updates is unbounded; a test runs a few schedules", "anchors": ["net/metric/connections-metric.go"]}
{"id": "C87", "title": "Traffic counters of a connection", "statement": "After any sequence of traffic reports the packet, byte and stream counters of a connection are the sums of what was reported, modulo 2^64, and the lost or resent counters never exceed what was sent while no counter wraps.", "quantifier": "every sequence of reports with every amount", "why_tests_cant": "ranges over all histories and amounts, including wrap-around", "anchors": ["net/metric/connection.go"]}
{"id": "C88", "title": "Requests are served for the application's host and redirected for its aliases", "statement": "The host of a request is that of its target or else its first Host line. A request is served exactly when its host is empty or the application's domain; a request for an address or for www.domain gets a permanent redirect to the same path and query of the domain; following the redirect is served.", "quantifier": "every domain, host, path, query and header", "why_tests_cant": "ranges over all host names and domains, including domains the code confuses with addresses", "anchors": ["net/http/request.go CheckHost", "net/http/services/host-supported.go ServeHTTP"]}
{"id": "C89", "title": "An error put in a response is the error read from it", "statement": "After SetError on a response GetError on it yields the registered error with that id; redirects and statuses set from errors are those documented and leave other lines alone.", "quantifier": "every error identifier, every registry, every response", "why_tests_cant": "all identifiers: no example shows that no identifier at all round-trips", "anchors": ["net/http/response.go GetError SetError Redirect SetStatusByError"]}
{"id": "C90", "title": "Every HTTP request gets exactly one response from the right service", "statement": "Each request, decodable or not, is answered exactly once; /s runs the service whose id is the query and nothing else (405 and 404 otherwise); any other path runs the service registered for it, else serves the file or main page; every response has a status; no request stops the server.", "quantifier": "every request, every set of services and files, every behaviour of the services", "why_tests_cant": "services are arbitrary functions and requests arbitrary", "anchors": ["net/http/v1/handler.go", "net/http/services/service-mux.go", "net/http/services/serve-www.go"]}
{"id": "C91", "title": "Responses announce their body correctly", "statement": "A response with a body carries exactly one Content-Length line with its length, and the type and coding of the body; a response without a body announces length zero.", "quantifier": "every request, response and body", "why_tests_cant": "any service may have written any header lines before", "anchors": ["net/http/v1/handler.go HandleOutcomeResponse", "net/http/body.go", "net/http/header-content-length.go"]}
{"id": "C92", "title": "Generated record layouts do not overlap", "statement": "In the code generated for any struct type each field has its own bytes of the fixed part: fields are in order, inside the fixed part, no byte belongs to two fields and none to no field.", "quantifier": "every struct type", "why_tests_cant": "struct types are unbounded in number and length", "anchors": ["syllab/generator.go make getSLIAsString"]}
{"id": "C93", "title": "Generated length and encoder agree", "statement": "For every struct type and value the generated length is exactly what the generated encoder writes, the encoder does not panic, and the record is the fixed parts of the fields in order followed by their contents in order.", "quantifier": "every struct type and every value of it", "why_tests_cant": "all types and all values", "anchors": ["syllab/generator.go CompleteMethods", "syllab/encode.go"]}
{"id": "C94", "title": "Generated decoders read back what generated encoders wrote", "statement": "For every struct type and value, decoding the encoded record, copying or in place, into any destination gives the value back; a buffer shorter than the fixed part is refused.", "quantifier": "every struct type, value and destination", "why_tests_cant": "all types and all values", "anchors": ["syllab/generator.go CompleteMethods", "syllab/decode-safe.go", "syllab/decode-unsafe.go"]}
{"id": "C95", "title": "A JSON object written field by field is one JSON object and reads back field by field", "statement": "Calling EncodeKey and the Encode method of each field in turn (unsigned and signed integers, booleans, strings, lists and fixed arrays of numbers, base64 bytes, lists of 32-byte identifiers), with commas added and the last one removed, produces one RFC 8259 object with exactly those members in that order; calling DecodeKey and the matching Decode method in the same order on it returns exactly the same keys and values.", "quantifier": "every list of fields of any length, with any keys and values of the field types", "why_tests_cant": "The decoder keeps state between fields (its position, the last terminator): correctness depends on the whole sequence of field types, of which there are infinitely many.", "anchors": ["json/encode.go Encoder.EncodeKey, AddTrailingComma, RemoveTrailingComma, Encode*", "json/decode.go Decoder.DecodeKey, Decode*"]}
{"id": "C96", "title": "The minified decoder reads back an object written field by field", "statement": "Calling the minified decoder's DecodeKey and matching Decode methods in field order on an object written without spaces returns exactly the same keys and values.", "quantifier": "every list of fields of any length, with any keys and values of the field types", "why_tests_cant": "Each method must leave the decoder exactly where the next one expects it, for every sequence of field types and every value.", "anchors": ["json/decode-minified.go DecoderMinified.DecodeKey, Decode*", "json/decode-minified-unsafe.go DecoderUnsafeMinified.DecodeString"]}
{"id": "C97", "title": "Compressing and decompressing codecs give back the original bytes in every sequence of calls", "statement": "A codec made by Compress over a source serves the compressed bytes from Marshal, MarshalTo (appended), Len (their number) and WriteTo, and refuses Decode, Unmarshal, UnmarshalFrom and ReadFrom, whatever calls came before; a codec made by Decompress over those bytes serves the original bytes. For both gzip and deflate, at every level the library accepts; any other level makes the reading calls panic.", "quantifier": "every source, every accepted level, every finite sequence of calls, every lossless compression library", "why_tests_cant": "The codecs compute lazily and keep the result: the answer must not depend on which of infinitely many call sequences came before.", "anchors": ["compress/gzip/compressor.go Compressor", "compress/gzip/decompressor.go Decompressor", "compress/flate/compressor.go", "compress/flate/decompressor.go"]}
{"id": "C98", "title": "Compression codecs report failures and what they wrote", "statement": "A source that fails, data that is not a compressed stream and a damaged stream are reported as errors by the reading calls; WriteTo returns the number of bytes written.", "quantifier": "every source, damaged or not, and every sequence of calls", "why_tests_cant": "It speaks about every possible damaged input and every call sequence.", "anchors": ["compress/gzip/compressor.go Marshal, MarshalTo, WriteTo", "compress/gzip/decompressor.go decompressAll, Marshal", "compress/flate/decompressor.go decompressAll, WriteTo"]}
{"id": "C99", "title": "A compression codec follows its source and the data it is given", "statement": "After the source changes, or after Unmarshal, UnmarshalFrom or ReadFrom succeeded, the reading calls serve the new content.", "quantifier": "every sequence of source changes and calls", "why_tests_cant": "Staleness depends on the history of calls.", "anchors": ["compress/gzip/decompressor.go Unmarshal, UnmarshalFrom, ReadFrom", "compress/gzip/compressor.go Marshal", "compress/flate/compressor.go Marshal"]}
{"id": "C100", "title": "The JSON codec returns the bytes it was given and the object's JSON otherwise", "statement": "After Unmarshal or Decode of some bytes, Marshal and WriteTo return exactly those bytes until the next Unmarshal or Decode, whatever else happens; before, Marshal returns the object's JSON; changes of the object and failures to serialise are visible to the caller.", "quantifier": "every application type, every object, every sequence of calls", "why_tests_cant": "The codec caches the payload, so the claim is about all histories and all application types.", "anchors": ["json/codec.go Codec.Init, Marshal, MarshalTo, Unmarshal, UnmarshalFrom, Decode, WriteTo"]}
{"id": "C101", "title": "Compression type registry", "statement": "Each lookup (identifier, media type, file extension, content encoding) returns the last accepted registration with that key and reports not-found exactly when there is none; the listed content encodings are those of the accepted registrations in order; a registration is refused exactly when its media type or content encoding is empty.", "quantifier": "every sequence of registrations and every key", "why_tests_cant": "It must hold for every history of registrations.", "anchors": ["compress-types/compress-types.go compressTypes.Register, GetByID, GetByMediaType, GetByFileExtension, GetByContentEncoding, ContentEncodings"]}
{"id": "C102", "title": "Media type registry", "statement": "Each lookup (identifier, media type text, file extension) returns the last accepted registration with that key, types without a file extension are never found by one, and a lookup that finds nothing is an error; incomplete media types are refused.", "quantifier": "every sequence of registrations and every key", "why_tests_cant": "It must hold for every history of registrations.", "anchors": ["mediatypes/media-types.go mediaTypes.Register, GetByMediaType, GetByID, GetByFileExtension"]}
{"id": "C103", "title": "TCP user timeout acts only on idle established connections, and spaces its probes", "statement": "While the user timeout is disabled, not yet due, or the stream is not established, a check does nothing. Traffic since the last check restarts the whole idle period. On an idle stream a bounded number of probes is sent, spaced in time, before the stream is closed; a pending delayed acknowledgement is sent when its delay is over.", "quantifier": "every timer state, stream status, last-use time and every sequence of check times", "why_tests_cant": "the claim is about every sequence of check times, including bursts and late timers; a test fixes one schedule", "anchors": ["net/tcp/stream-timing-user_timeout.go: Init, Reinit, CheckInterval", "net/tcp/stream-timing-delayed_acknowledgment.go: Init, CheckInterval"]}
{"id": "C104", "title": "TCP handshake retry limits", "statement": "The limit on SYN (and SYN-ACK) retries is reported after the configured number of retries has been used, stays reported, and starts afresh when a stream is reinitialised.", "quantifier": "every number of retries and every stored counter", "why_tests_cant": "the counter is one octet and wraps; a test with a few retries never sees it", "anchors": ["net/tcp/stream-internal-syn.go: Init, Reinit, ReachMaxSyn, SendNewSyn", "net/tcp/stream-internal-syn-ack.go: Init, Reinit, ReachMaxSynACK, ReceiveNewSynAck"]}
{"id": "C105", "title": "TCP option views read the option's value and find the next option", "statement": "For every option laid out as its RFC says, the view returns the length octet, the value of the data octets, and the octets after the option as the next option.", "quantifier": "every option kind with a view, every data of the RFC's length, every following octets", "why_tests_cant": "ranges over all data and all continuations; a wrong offset shows only with particular following options", "anchors": ["net/tcp/option-mss.go", "net/tcp/option-window-scale.go", "net/tcp/option-timestamps.go", "net/tcp/option-echo.go", "net/tcp/option-cc.go", "net/tcp/option-alt-checksum.go", "net/tcp/option-partial-order-connection-permitted.go"]}
{"id": "C106", "title": "Localising an asset puts every numbered text in its place", "statement": "For every script or page with text slots LocaleText[n] / ${LocaleText[n]} and the texts of a language, localising returns the same file with each slot replaced by text n and nothing else changed; localising always ends, and a slot with a wrong number is reported.", "quantifier": "every text, every list of slots, every list of texts", "why_tests_cant": "ranges over all files and slot sequences; overlap of markers and text is unbounded", "anchors": ["www/js.go: replaceLocalizeTextInJS, localizeJSFile", "www/html.go: replaceLocalizeTextInHTML, localizeHTMLFile"]}
{"id": "C107", "title": "Mixing puts the style sheet and the page into the script at the marker", "statement": "Mixing a style sheet or a page into a script inserts the minified text right after the marker and keeps every other byte; the combined script contains its page and templates.", "quantifier": "every script, style sheet, page, template name, minifier", "why_tests_cant": "ranges over all scripts and all positions of the markers", "anchors": ["www/css.go: mixCSSToHTML, mixCSSToJS", "www/html.go: mixHTMLToJS, mixHTMLTemplateToJS", "www/js.go: localeAndMixJSFile"]}
{"id": "C108", "title": "Import extraction finds every import and keeps the other code", "statement": "Extracting the imports of a script returns their paths in order and leaves the rest of the code; it always ends, leaves no import keyword, and never fails on a valid script.", "quantifier": "every script", "why_tests_cant": "all scripts, including the keyword in comments and at the first byte", "anchors": ["www/js.go: extractJSImports"]}
{"id": "C109", "title": "The bundle has every imported file once, dependencies first", "statement": "For every project, with any import cycles, bundling ends, the bundle has exactly the files reachable from the main file, each once, and a file comes after the files it imports.", "quantifier": "every finite import graph", "why_tests_cant": "all graphs, including cycles and diamonds", "anchors": ["www/js.go: extractJSImportsRecursively", "www/combine.go: readyAppJSFiles, addLocalized, isInlined"]}
{"id": "C110", "title": "Minifying a page keeps its text", "statement": "Minifying HTML removes comments and line breaks, keeps every other byte and the separation of words, and minifying again changes nothing.", "quantifier": "every byte string", "why_tests_cant": "all byte strings; removals can join to form new markers", "anchors": ["minify/html.go: htmlMinifier, MinifyBytes"]}
{"id": "C111", "title": "The signal of a channel timer says whether it has ticked", "statement": "At every moment the signal channel of a timer holds exactly one signal if the timer has ticked since the last receive and none otherwise; sending the signal never blocks the thread that runs timers; and a receive succeeds only for a tick that happened.", "quantifier": "every interleaving of the calls of a client, the receives of its reader and the steps of the thread that runs timers, of any length", "why_tests_cant": "all schedules of two threads, of unbounded length", "anchors": ["timer/timer-sync.go: Sync, Init, Signal, TimerHandler", "timer/tick.go: Tick", "timer/timing.go: runTimer"]}
{"id": "C112", "title": "A channel timer can be closed at any moment", "statement": "Closing a channel timer at any moment succeeds: no thread panics, then or later, closing it twice is harmless, and a reader that waits on the channel is released.", "quantifier": "every interleaving of the client and the thread that runs timers, with the close at any point of it", "why_tests_cant": "the panic needs a close between two particular steps of the other thread", "anchors": ["timer/timer-sync.go: Deinit, TimerHandler", "timer/timer-async.go: Stop", "timer/timing.go: runTimer"]}
{"id": "C113", "title": "A log call reaches every listener once", "statement": "Every log call gives each registered listener, in the order of registration, exactly one event with the domain, level and text of the call; a run of calls arrives complete and in order; the levels are distinct bits.", "quantifier": "every set of listeners, every sequence of log calls, every text", "why_tests_cant": "unbounded sequences and arbitrary listener behaviour, including listeners that fail", "anchors": ["log/log-helpers.go", "log/event.go: Init", "event/target.go: DispatchEvent", "log/protocol/level.go"]}
{"id": "C114", "title": "A recovered panic is reported exactly once and the goroutine goes on", "statement": "A goroutine that defers the panic handler returns whatever its body panics with, and the listeners of the log get exactly one event for the panic, with its text; without a panic nothing is reported.", "quantifier": "every body, every panic value, every set of log listeners", "why_tests_cant": "all panic values and listener behaviours; the failing case needs a panic inside a log listener", "anchors": ["log/panic_handler.go: PanicHandler", "log/util.go: FatalError", "event/target.go: DispatchEvent"]}
{"id": "C115", "title": "Starting the application reports every failure", "statement": "Initialising the application reports no error exactly when all its parts initialised; stopping it reports the first failure.", "quantifier": "every combination of outcomes (fine, error, panic) of the parts", "why_tests_cant": "the parts' failures cannot be provoked from tests", "anchors": ["achaemenid/application.go: Init, Deinit", "log/panic_handler.go: PanicHandler"]}
{"id": "C116", "title": "Status listeners learn every status change in order", "statement": "The status is the last change made; each status listener receives the changes made since it was registered, in order, none invented or doubled, and after reading everything knows the current status.", "quantifier": "every history of life-cycle calls, signals, registrations and receives, every channel capacity", "why_tests_cant": "unbounded histories and capacities", "anchors": ["achaemenid/status.go: NotifyStatus, changeState, Status", "achaemenid/application.go: Init, Deinit"]}
{"id": "C117", "title": "A stop signal stops the application", "statement": "A running application that is sent interrupt, quit, terminate or kill is stopped; other signals do not stop it.", "quantifier": "every history of life-cycle calls and signals, every signal", "why_tests_cant": "it is a claim about all histories: no history reaches the state in which a signal is heeded", "anchors": ["achaemenid/application.go: OsSignalHandler", "achaemenid/status.go: Status"]}
{"id": "C118", "title": "Bytes written to the queue can be read back in order", "statement": "What is written to an initialised byte queue is kept, counted and read back in the order of writing; no operation panics.", "quantifier": "every history of queue operations", "why_tests_cant": "unbounded histories", "anchors": ["adt/queue/queue.go: Init, Read, Write", "adt/queue/queue-codec.go"]}
{"id": "C119", "title": "Reading and writing through a socket returns", "statement": "Writing bytes to a socket returns and reports how many were taken; reading from it returns when the stream is complete, is closed or times out; changing the status of a socket does not block.", "quantifier": "every byte string, every sequence of stream states", "why_tests_cant": "non-termination over all inputs and all sequences of states", "anchors": ["net/socket-codec.go: Marshal, Unmarshal, UnmarshalFrom, blockInSelect", "net/connection-status.go: SetStatus"]}
{"id": "C120", "title": "A share of a number is exact, rounded down", "statement": "The per-ten, per-cent, ... per-quadrillion share of a 64-bit number is the number times the share divided by the unit, rounded down; a share of at most the whole is at most the number and grows with it; the whole is the number itself.", "quantifier": "every unit, every share of its type, every 64-bit number", "why_tests_cant": "2^64 numbers times all shares; the failure is an overflow", "anchors": ["math/per/*.go: Calculate"]}
{"id": "C121", "title": "Booleans and signed integers as text round-trip", "statement": "Printing a boolean or a signed integer and parsing the text gives the value back; a text that is not such a value is an error.", "quantifier": "every value, every text, every previous value of the receiver", "why_tests_cant": "all texts and all values", "anchors": ["math/boolean/boolean.go: ToString, FromString", "math/integer/signed.go, signed-8.go, signed-64.go: ToString, FromString"]}
{"id": "C122", "title": "Text length validation accepts exactly the allowed lengths", "statement": "A text is accepted exactly if it has at least the minimum and, unless the maximum is zero, at most the maximum number of bytes; otherwise the error says which bound fails.", "quantifier": "every text, every minimum and maximum", "why_tests_cant": "all texts and bounds", "anchors": ["validators/text.go: ValidateTextLength"]}
{"id": "C123", "title": "Slices reinterpreted as bytes and back show the same memory", "statement": "Seen as bytes a slice shows its elements one after the other; seen as elements a byte slice shows its whole groups of bytes and never more memory than it has; there and back gives the same slice; a write through one is seen through the other, at that element only; a string keeps its bytes.", "quantifier": "every element kind, every slice in memory, every index and value", "why_tests_cant": "all sizes and capacities; out-of-bounds views only show in some layouts", "anchors": ["convert/integer-slice-unsafe.go", "convert/signed-integer-slice-unsafe.go", "convert/float-slice-unsafe.go", "convert/complex-slice-unsafe.go", "convert/array-slice-unsafe.go", "convert/bool-slice-unsafe.go", "convert/string-unsafe.go"]}
{"id": "C124", "title": "A parsed Go type is described completely and the parser always comes back", "statement": "Package.Parse describes every type it meets: its name, whether it is a pointer, the package it comes from and its named fields in the order written, numbered from 0, and so on for the types of the fields; and it comes back for every type that Go accepts. (Holds for finite types; a type that refers to itself overflows the stack; arrays, maps, interfaces, functions, nested pointers and embedded fields are lost.)", "quantifier": "every type expression, every set of declarations in the file and every set of imports", "why_tests_cant": "types nest without bound and declarations may form any graph; the runs that do not end cannot be observed by a test that ends", "anchors": ["go/parser/package.go:parseType", "go/parser/parse.go:Type"]}
{"id": "C125", "title": "The functions of a package are recorded as declared", "statement": "After Package.Parse an exported function is recorded exactly when it takes two parameters, with the name and type of the first, the error among its results and the other result; the last declaration of a name counts; no source text makes the parser panic. (Groups are counted instead of parameters, a method replaces a function of its name, and a first parameter without a name panics.)", "quantifier": "every list of declarations, every earlier content of the package", "why_tests_cant": "ranges over all files and orders of declarations", "anchors": ["go/parser/package.go:parseFile"]}
{"id": "C126", "title": "Only the Go files of a package that are not tests are read, and names resolve to their import", "statement": "Package.Parse keeps every file it is given under its name, reads those that are Go files and not tests, reports a syntax error and then changes nothing else, and resolves a qualified name to the import of its file. (Every file is read whatever its name; imports of all files share one table where the last wins; a package whose path ends in something else than its name is not found.)", "quantifier": "every file name and content, every list of imports, every history of files", "why_tests_cant": "ranges over all names, paths and sequences of files", "anchors": ["go/parser/package.go:Parse", "go/parser/package.go:parseFile", "go/parser/package.go:AddFile"]}
{"id": "C127", "title": "A frame follows the ports of its path to the last switch, in any network", "statement": "A unicast frame handed to a multiplexer visits exactly the multiplexers its path names, records on the way the ports that lead back, and is delivered at the last; sent back along the recorded path it returns; forwarding always ends; a frame that is not a proper Chapar frame changes nothing. (Frames up to 255 bytes; with a next hop above 252 a frame can circle for ever.)", "quantifier": "every network of multiplexers, every path, every frame", "why_tests_cant": "the topology and the path are unbounded; the endless loop needs one particular port number", "anchors": ["net/chapar/mux.go:Multiplexer.Receive", "net/chapar/mux.go:Multiplexer.Send", "net/chapar/port.go"]}
{"id": "C128", "title": "A bridge passes frames on as one more hop", "statement": "A bridge hands a frame to its other side with the hop recorded and reports the failure of that side. (At the last hop of the path the frame is dropped without an error, errors of the receiving multiplexer are lost, and a bridged link takes two hops of the path.)", "quantifier": "every frame, path and network behind the bridge", "why_tests_cant": "the dropping depends on the position in the path", "anchors": ["net/chapar/port-bridge.go"]}
{"id": "C129", "title": "Each TCP segment over IP reaches the stream of its addresses and ports", "statement": "A segment is handed to the stream kept for its source and destination addresses and ports, a new one if there is none, and no other stream changes; over IPv6 a port without a service is answered by an error. (No stream is ever made: whatever came before, every proper segment ends the process.)", "quantifier": "every history of segments from the start of the process, every segment and pair of addresses", "why_tests_cant": "the claim is about all histories of the shared table", "anchors": ["net/ipv4/tcp.go:ReceiveOverIPv4", "net/ipv6/tcp.go:ReceiveTCPOverIPv6"]}
{"id": "C130", "title": "The IPv6 routing header is read as RFC 8200 lays it out", "statement": "The fields of a routing header, its data and what follows it are those of the standard. (The fixed part is; the length is taken in bytes instead of groups of eight, so the optional data and the next header are never found when there is optional data.)", "quantifier": "every routing header and everything after it", "why_tests_cant": "the byte sum wraps at 248 and the offsets depend on the length byte", "anchors": ["net/ipv6/extension-routing.go"]}
{"id": "C131", "title": "An HTTP request ends with its response or an error", "statement": "A request that expects an answer returns the decoded answer, with the error it carries, once it has arrived completely; it returns an error when time is up or it could not be sent; and its stream is closed in every case. (On a time-out there is neither a response nor an error; a request that could not be sent leaves the stream open; on a closed state channel the call turns for ever.)", "quantifier": "every sequence of states the stream goes through, every response and error", "why_tests_cant": "the claim is about every order in which the states can come, including none", "anchors": ["net/http/v1/handler.go:SendBidirectionalRequest", "net/http/v1/handler.go:SendUnidirectionalRequest"]}
{"id": "C132", "title": "An sRPC call ends with its answer or an error", "statement": "A remote call returns the answer when it has come and an error when time is up or the connection ends; the callee answers with what its service gives and otherwise with an error. (A time-out and a closed connection give neither answer nor error, and a request for an unknown service is never answered.)", "quantifier": "every sequence of states of the socket and every service", "why_tests_cant": "every order of the states, and channels that never close, have to be covered", "anchors": ["net/srpc/handler.go"]}
{"id": "C133", "title": "A stream seen as a net.Conn keeps that interface's contract", "statement": "Close returns, SetReadDeadline and SetWriteDeadline set the deadline of their own direction, the zero time removes it and a past one ends the calls. (Close calls itself for ever, the two directions are exchanged, the zero time sets the deadline to now and a past deadline removes it.)", "quantifier": "every socket, deadline and reading of the clock", "why_tests_cant": "a call that never ends and every deadline relative to the clock", "anchors": ["net/std/net.go", "net/std/io.go"]}
{"id": "C134", "title": "A registered page is found by its path and listed in order", "statement": "After any sequence of registrations the pages are listed in the order they were added and a path leads to the page added last for it. (So it is once the map exists, but nothing makes the map: the first registration ends the process with the page already listed.)", "quantifier": "every sequence of registrations", "why_tests_cant": "every history of the registry, not one", "anchors": ["gui/pages.go"]}
{"id": "C135", "title": "Checking an action type is set inclusion", "statement": "Check tells exactly whether every action of the given set is in the other; the named actions are distinct, All holds every set and None is in every set.", "quantifier": "every pair of 64-bit action sets", "why_tests_cant": "2^128 pairs", "anchors": ["operation/protocol/action.go"]}
{"id": "C136", "title": "A compressed text is read character by character", "statement": "The first character of a valid compressed text is decoded with its size, so a text is read to its end. (Only if its last character takes all four bytes: a shorter last character ends the process.)", "quantifier": "every sequence of valid characters", "why_tests_cant": "texts of every length", "anchors": ["language/string.go:DecodeCompressCharecter"]}
{"id": "C137", "title": "Files are sorted newest first and hidden files are told by their name", "statement": "SortFilesDec puts newer files before older ones; a file is hidden exactly when its name begins with a dot. (The order is the opposite one; asking whether a directory is hidden ends the process.)", "quantifier": "every list of files and every path", "why_tests_cant": "all lists and paths", "anchors": ["os/default/sort.go", "os/default/file-meta-data.go:Hidden"]}
{"id": "C138", "title": "A timer started on any core is given to a running timing", "statement": "After start-up each core's timing runs and knows its core. (With more threads than processors the process ends at start-up; a core numbered at or above the number of threads has a timing that never runs; each timing takes the core of the starting thread for its own.)", "quantifier": "every number of processors and threads and every core", "why_tests_cant": "the machine running the tests has one configuration", "anchors": ["timer/init.go", "timer/timing.go:Init"]}
{"id": "C139", "title": "Encrypted data cannot be read or changed without the key", "statement": "What a cipher encrypts is readable with its key only, and changes to it are reported. (Every cipher leaves the data as it is.)", "quantifier": "every cipher, key and buffer", "why_tests_cant": "a round-trip test passes", "anchors": ["crypto/aes-256.go", "crypto/gcm.go", "crypto/ccm.go"]}
{"id": "C140", "title": "Minify and URN parsing do what they say or report an error", "statement": "Minify replaces the data by its minified form or returns an error; a URN gives its namespace and its specific part. (A failure of the minifier is not reported; the parts of a URN are never set.)", "quantifier": "every codec, minifier and URN", "why_tests_cant": "every behaviour of the codec and the library", "anchors": ["minify/minify.go", "net/uri/urn.go"]}
{"id": "C141", "title": "The queue of timers of a core is consistent at every time", "statement": "After every history of Start, Tick, Stop, Reset and wake-ups, made by callers or by callbacks, no timer stands in the queue of its core twice; a timer is to run exactly if it is queued and not stopped; the counter of timers is the number of queue entries and the counter of stopped timers the number of stopped entries, so their difference is the number of timers that are to run; the time kept for the next wake-up is the earliest key; and verifyTimerHeap has nothing to report.", "quantifier": "all callback behaviours, all histories of calls and wake-ups with all clock readings that end, rescheduling included", "why_tests_cant": "it is an invariant of all histories; the counters and the heap are updated in ten places that may interleave in any order", "anchors": ["timer/timing.go:AddTimer", "timer/timing.go:deleteTimer", "timer/timing.go:deleteTimer0", "timer/timing.go:clearDeletedTimers", "timer/timing.go:adjustTimers", "timer/timing.go:verifyTimerHeap", "timer/timer-async.go:Stop", "timer/timer-async.go:Reset"]}
{"id": "C142", "title": "The timers of a core can be moved to another", "statement": "MoveToMe and Reinit move every timer that is to run to the calling core, keep its due time, and leave the old queue empty. It does not hold: with a timer to run both wait for ever on a lock they hold, on every core; they end exactly if nothing is queued, or nothing is to run and another core calls; and a MoveToMe that ended left freed timers queued, so that the old core never returns from a later wake-up.", "quantifier": "all histories, all queues, the same or another calling core", "why_tests_cant": "whether the call ends depends on the whole history of the queue", "anchors": ["timer/timing.go:MoveToMe", "timer/timing.go:Reinit", "timer/timing.go:moveTimersTo", "timer/timing.go:moveTimers"]}
{"id": "C143", "title": "The scheduler never sleeps past a timer", "statement": "After every history of single-shot timers, started, stopped and rescheduled at will, neither of the two wake-up times of a queue is after the due time of a timer that is to run; a wake-up before that time changes nothing unless more than a quarter of the queue is stopped; a wake-up that returns leaves no timer that was due, and at most a quarter of the queue stopped. It does not hold that a wake-up returns: once a timer that is to run was rescheduled to an earlier time, no wake-up at or after that time does; and the next time a wake-up reports may be later than a due time.", "quantifier": "all callback behaviours, all histories of Start, Stop, Reset and wake-ups, all clock readings and delays that do not overflow", "why_tests_cant": "the wake-up times are kept by several functions over the whole history; a test sees one schedule", "anchors": ["timer/timing.go:noBarrierWakeTime", "timer/timing.go:sleepUntil", "timer/timing.go:checkTimers", "timer/timing.go:adjustTimers", "timer/timing.go:isCleanNeed", "timer/timer-async.go:Reset"]}
{"id": "C144", "title": "A file or directory is found by its name anywhere in a tree", "statement": "Searching a tree of directories for a name gives a file or directory of that name that is in the tree, and nil only if there is none, in whatever order Go walks the maps; searching for a part of a name gives the files whose names contain it, at most the number asked for; Files lists all files in the order of their names. It does not hold for a tree with a directory that was not opened: the search panics for every name it does not hold, and for others by the order of the map; in a directory as it was read from disk nothing is ever found; FindFile then gives a nil pointer in an interface value that is not nil; Files ignores offset and limit.", "quantifier": "all trees, all names, all orders of the maps, all directory listings", "why_tests_cant": "the order of a map is random and trees are unbounded", "anchors": ["os/default/file-directory.go:FindFileRecursively", "os/default/file-directory.go:GetDependencyRecursively", "os/default/file-directory.go:FindFiles", "os/default/file-directory.go:FindFile", "os/default/file-directory.go:Files", "os/default/file-directory.go:init"]}
{"id": "C145", "title": "What is written to a file is read back and saved", "statement": "After every history of Unmarshal, Append, Prepend, Save and Rename on a file with data, Marshal, MarshalTo, Len and WriteTo give the contents these calls make. It does not hold that a file is saved or read from disk: whatever is done with a file made from a name or path, the disk stays as it was and Save returns no error; before data is given nothing is read, and what is appended or prepended is lost, also after nil was given as data; Decode reports no error of its reader.", "quantifier": "all histories, all data, all disks and permissions, all names and paths", "why_tests_cant": "histories and data are unbounded; a test sees one", "anchors": ["os/default/file.go:Save", "os/default/file.go:Prepend", "os/default/file.go:Append", "os/default/file.go:Marshal", "os/default/file.go:MarshalTo", "os/default/file.go:Unmarshal", "os/default/file.go:ReadFrom", "os/default/file.go:Decode", "os/default/file.go:WriteTo", "os/default/file.go:Len"]}
{"id": "C146", "title": "Two versions of a file get different names", "statement": "AddHashToFileName puts a checksum of the contents between base and extension, so that two versions of a file never share a name, and the renamed file is found under the new name only. Two versions that differ in up to four bytes in a row always get different names; that all do is false: to any contents there are others of the same length with the same name. The checksum is put after the dot of the extension and again at every call, a name without extension gets a dot at its end, and a file that had the new name is lost.", "quantifier": "all names, all contents, all directories", "why_tests_cant": "the claim is about all pairs of contents", "anchors": ["file/file.go:AddHashToFileName", "os/default/file.go:Rename", "file/uri.go:NameWithoutExtension"]}
{"id": "C147", "title": "A relative path leads to the file it names", "statement": "From a file, a relative path of '.', '..' and names leads to the file of that name in the directory the path leads to, or gives nil. It holds if every directory on the way is opened. If one is not, or the path leads out of the tree, the search panics; a name without a slash is never found; in a directory as it was read from disk every path but ./name panics; and the search asks the system to make directories that do not exist.", "quantifier": "all trees, all relative paths", "why_tests_cant": "paths and trees are unbounded", "anchors": ["file/file.go:FindByRelativeFrom", "os/default/file-directory.go:Directory", "os/default/file-directory.go:File"]}
{"id": "C148", "title": "Each language gets a script with every module in that language", "statement": "After the assets are put together, every language of main.json has its own script: the text of every imported module in that language, in bundle order, and the error texts, stored under a name with the hash of its contents. It holds when there are no style sheets. With some, their names in the script are put out afterwards (C149). A module that has no texts in a language is left out of that language's script, although the log says that it is used as it is.", "quantifier": "all projects, languages, modules, minifiers, compressors and earlier contents of the directories", "why_tests_cant": "sets of modules and languages are unbounded and the map of languages is walked in any order", "anchors": ["www/combine.go:readyAppJSFiles", "www/combine.go:addLocalized", "file/file.go:AddHashToFileName"]}
{"id": "C149", "title": "A script refers to the style sheets that are there, under a name that tells its versions apart", "statement": "In each language's script every style sheet's name is put out by the name of its minified, hashed copy, which is there, and the script's own name and its compressed copies match what it holds. The references are right with one sheet, or when no name ends in another's. The name and the compressed copies are made before: whenever a sheet changes, a script referring to it changes under the same name, and its compressed copies still refer to the file without hash. A sheet whose name ends in another sheet's name is left with a reference to nothing.", "quantifier": "all scripts, sheets, minifiers and compressors", "why_tests_cant": "the claim relates two updates over all contents", "anchors": ["www/combine.go:readyDesignLanguagesFiles", "www/combine.go:readyAppJSFiles", "os/default/file.go:Replace"]}
{"id": "C150", "title": "The page served for a language is main.html with the link to its script", "statement": "For every language the page served is landings/main.html, minified, with the link to /main.js put out by the script of that language. What landings/main.html holds never matters: the page is made from the file main-<language>.html of the gui directory, and is empty where there is none. That file is gone after the first update, so the second one serves an empty page. The link put in is relative while /main.js was not.", "quantifier": "all pages, scripts, languages and earlier contents", "why_tests_cant": "the claim is about every page and every sequence of updates", "anchors": ["www/combine.go:readyAppJSFiles"]}
{"id": "C151", "title": "Reloading the assets without a change leaves them as they are", "statement": "Updating twice gives the same files as updating once. False wherever there is a style sheet: every update takes the hashed copies of the last one for sheets and makes copies of them, so after n updates there is a sheet with a name at least n bytes long, and no number of updates settles. A project's own sheet called h-<other sheet> is lost. Without sheets the directory stays as it is.", "quantifier": "all directories of style sheets, any number of updates, any listing order", "why_tests_cant": "the number of updates is unbounded", "anchors": ["www/combine.go:readyDesignLanguagesFiles", "www/assets.go:ReloadByCLI"]}
{"id": "C152", "title": "The service worker of a language fetches that language's page", "statement": "After an update every language has a worker sw-<language>.js: sw.js with every main.html in it put out by the name of that language's page, minified, and the page is there under that name. Without sw.js no worker is made.", "quantifier": "all workers, pages, languages, minifiers and compressors", "why_tests_cant": "all texts with any number of occurrences", "anchors": ["www/combine.go:readySWFile"]}
{"id": "C153", "title": "Landing pages are made in each of their languages", "statement": "For a landing page b.html with texts in b.json and styles in b.css, a page is made for each language. False for every page: the names asked for have two dots (b..json, b..css), so no page is made and an empty b..json is. With files of those names a page is made for each language, under b.-<language>.html.", "quantifier": "all landing directories, texts and styles", "why_tests_cant": "all directories of pages", "anchors": ["www/combine.go:readyLandingsFiles", "file/uri.go:NameWithoutExtension"]}
{"id": "C154", "title": "Compressing a file makes a copy for each encoding", "statement": "Compress makes, for each known encoding, a copy name.extension holding the compressed data, leaves every other file as it is, leaves pictures, films and sounds alone, and reports an encoding that is not known. All hold but the last: an encoding that is not known is reported if it comes last and never otherwise. When a compressor fails an error is returned and the encodings after it are not tried.", "quantifier": "all files, all lists of encodings, all compressors", "why_tests_cant": "lists of encodings are unbounded and the compressors any", "anchors": ["file/file.go:Compress"]}
{"id": "C155", "title": "Visiting the flags of a command", "statement": "VisitAll calls the visitor on every declared flag, in the order declared, until the visitor asks to stop. Visit does the same over the flags that were set. After parsing a command line, the flags that were set are those the line names; Visit meets them in the order of the line and once per setting (so not in the declared order, and twice for a flag given twice). A flag set used again visits only what the new line sets - which holds only after Reinit: a second Init alone keeps the old record.", "quantifier": "every set of flags, every line of flags that parses, every visitor (its decision to stop may depend on all it has seen)", "why_tests_cant": "the visitor is an arbitrary stateful function and the line is an unbounded list of flags", "anchors": ["operation/command/flag.go: Init, Reinit, VisitAll, Visit, Set, Parse", "operation/command/flag.go: FromCLA"]}
{"id": "C156", "title": "Shortening paths", "statement": "The short form of a path leads to the same place as the path itself, seen from the working directory; it is never longer; it is the path itself unless the path is absolute and the way from the working directory is shorter; that way goes up exactly as often as needed to where the two part, then down. RelPaths does this to each path and keeps their number and order. IsTestFile is true exactly of names ending in _test.go.", "quantifier": "every absolute working directory, every path, every list of paths", "why_tests_cant": "paths are unbounded byte strings with any mix of dots, double dots and doubled slashes", "anchors": ["operation/command/path.go: ShortPath, RelPaths, IsTestFile"]}
{"id": "C157", "title": "A timer can be used again", "statement": "After Reinit reports no error the old use of the timer is over: its callback is not called, other timers are as before, and the timer has the new callback and can be started, made to tick or rescheduled like a new one. A timer that never ran, or whose callback has been called, can be reinitialised too.", "quantifier": "every history of starting, stopping, rescheduling and wake-ups before, every timer, delay and time", "why_tests_cant": "What Reinit leaves behind depends on where the timer is in its life and on whether the queue has been swept since, which is decided by the history of all other timers of the core.", "anchors": ["timer/timer-async.go: Async.Init, Async.Reinit, Async.Deinit, Async.Start, Async.Tick, Async.Reset"]}
{"id": "C158", "title": "The thread of a core sleeps until the next timer is due", "statement": "After each turn the thread serving the timers of a core sleeps until the earliest due time of the timers that are to run; when there are none it sleeps until one is started; a timer started while it sleeps is called back when it is due.", "quantifier": "every history of starting and stopping timers, every turn of the loop at every time, and everything users of timers do between two turns", "why_tests_cant": "Lateness depends on when a timer is started relative to the sleep of the thread, so it must be shown for every interleaving of turns and calls.", "anchors": ["timer/timing.go: Timing.Start, checkTimers, AddTimer", "time/monotonic/time.go: Time.Until"]}
{"id": "C159", "title": "Requests and responses can be used again", "statement": "After Reinit a request or a response behaves in every way like a newly initialised one, whatever was done with it before: method, version, target, host, header lines, body and everything later operations make of them; nothing of the earlier use remains.", "quantifier": "every history of operations before Reinit and every history after it", "why_tests_cant": "A leftover shows only in some pair of earlier and later use, of which there are infinitely many.", "anchors": ["net/http/request.go: Request.Init, Reinit", "net/http/response.go: Response.Init, Reinit", "net/http/header.go: Header.Reinit", "net/uri/uri.go: URI.Reinit, Marshal"]}
{"id": "C160", "title": "Stopping a timing wheel ends it, and it can be started again", "statement": "After Stop of a timing wheel returns, no callback of the wheel is called and the goroutine that runs Start returns. Its result says whether the wheel had been stopped before. A stopped wheel can be started again, and each start makes the wheel tick once per interval.", "quantifier": "every interleaving of ticks, of the goroutine that serves the wheel, and of calls of Start and Stop", "why_tests_cant": "Whether Stop finds the goroutine waiting or running callbacks depends on the schedule; a test sees one schedule and cannot show that a goroutine never returns.", "anchors": ["timer/timing-wheel/timing-wheel.go: Start, Stop"]}
{"id": "C161", "title": "Every day has its name", "statement": "The name given to the day of a time is the name of the weekday it falls on, different days have different names in every supported language, and a set of days is named too.", "quantifier": "every time, every day and set of days, every language", "why_tests_cant": "All times and sets of days; a test names a few days.", "anchors": ["time/utc/weekday.go: Weekdays, String", "time/utc/time.go: Weekdays"]}
{"id": "C162", "title": "Concurrent changes of an atomic time are all counted", "statement": "When threads add durations to one atomic time, each is counted exactly once whatever the schedule and the result is the start plus all durations, as a normal time. When threads exchange it, each gets a time that was stored before it, none is given out twice and the one left is the last one stored.", "quantifier": "every number of threads, all durations and times, every schedule of the memory operations", "why_tests_cant": "The number of schedules is unbounded and a race detector sees none of this, since every single operation is atomic.", "anchors": ["time/unix/atomic.go: Atomic.Add, Atomic.Swap", "time/monotonic/atomic.go: Atomic.Add"]}
{"id": "C163", "title": "Pragma: no-cache is honoured as Cache-Control: no-cache", "statement": "After the fix-up a header that says Pragma: no-cache and says nothing in Cache-Control says Cache-Control: no-cache; a header that does not say so, or that has a Cache-Control of its own, is unchanged; no other line changes, and fixing up again changes nothing.", "quantifier": "every header, any number of fix-ups", "why_tests_cant": "Headers are arbitrary multimaps; repeated and empty lines interact with the lookup of the first line only.", "anchors": ["net/http/header-pragma.go: Header.FixPragmaCacheControl"]}
{"id": "C164", "title": "Sleeping, and timers made in one call", "statement": "Sleep with a delay that is not positive returns at once; otherwise it returns no earlier than the delay after the call, and it does return once the delay has passed and the core runs its timers. A timer made and started in one call (NewAsync, NewSync, NewSyncTick, NewAsyncTick, After) is started exactly when its callback exists and its durations are positive; otherwise the caller learns of it (an error; a panic from After) and nothing is ever called.", "quantifier": "all histories of the timers of a core before and during the sleep, all delays, clock readings and callbacks, and all places where the timer may run relative to the sleeping thread", "why_tests_cant": "whether the timer runs between starting it and waiting depends on the schedule; a test almost never meets that window, and the guarantee against early return must hold for every interleaving with other timers", "anchors": ["timer/sleep.go: Sleep", "timer/timer-sync.go: After, NewSync", "timer/timer-async.go: NewAsync", "timer/tick.go: NewSyncTick, NewAsyncTick"]}
{"id": "C165", "title": "Timers used from several threads while the core runs its queue", "statement": "While any number of threads start, stop, reset and tick their timers and the core works on its queue, every atomic step in any order: each timer is taken to be run only while it is pending and due, and at most once per setting or period; its callback is called after that, once, in the same order, and never before the time it was set for; what Start, Tick, Reset and Stop answer is what they did at some moment between their beginning and their end; no call crashes or answers that it ran into another; a timer that is not periodic runs, and is stopped in time, at most as often as it is set.", "quantifier": "every number of threads and timers, every interleaving of atomic steps of the threads and of the core, every duration and clock; each timer is used by one thread (its owner, which may be the thread of the core inside a callback)", "why_tests_cant": "The windows between loading a status, reading the queue of a timer and swapping the status are a few instructions wide; a test meets almost none of the interleavings.", "anchors": ["timer/timer-async.go: Async.Start, Async.Stop, Async.Reset, Async.Tick", "timer/timing.go: Timing.AddTimer, cleanTimers, adjustTimers, runTimer, runOneTimer, clearDeletedTimers, checkTimers", "timer/status.go: Status"]}
{"id": "C166", "title": "After Stop no callback; rescheduling and restarting beside other threads do no harm", "statement": "Once Stop has answered without an error the callback of the timer is not called any more; a timer may be rescheduled while it waits and the core goes on serving its queue; a timer may be started again by its own callback while another thread stops it.", "quantifier": "every interleaving of atomic steps of the threads and of the core", "why_tests_cant": "The failures need the core to be between deciding a run and calling the callback, or a thread between two loads; tests do not control that.", "anchors": ["timer/timer-async.go: Async.Start, Async.Stop, Async.Reset", "timer/timing.go: Timing.runOneTimer, adjustTimers, AddTimer"]}
{"id": "C167", "title": "A queue of timers holds exactly the timers that are to run and stopped ones, each once, and knows how many are stopped", "statement": "Whatever threads do to their timers while the core works on its queue, no timer is in the queue twice; a timer that is to run is in the queue with the time it was last set for, and nothing else is but stopped timers; and the number of stopped timers the queue goes by (when it decides to clear them out) is the number of stopped timers it still holds.", "quantifier": "every number of threads and timers, every interleaving of atomic steps of the threads and of the core; each timer is used by one thread", "why_tests_cant": "The count is kept by other atomic steps than the status; whether they agree depends on the interleaving.", "anchors": ["timer/timer-async.go: Async.Stop, Async.Reset", "timer/timing.go: Timing.AddTimer, cleanTimers, runTimer, clearDeletedTimers"]}
{"id": "C168", "title": "The length a target announces is the length of its text", "statement": "For every URI, after every history of setting its components, reading, writing and resetting it, Len returns the number of bytes that Marshal returns, so a buffer of that length holds the text.", "quantifier": "all components and all histories of calls on one URI", "why_tests_cant": "the announced length is a formula over five texts of any length and over whether each is empty; a test sees single combinations", "anchors": ["net/uri/uri.go: URI.Len, URI.len, URI.Marshal, URI.MarshalTo, URI.Reinit"]}
{"id": "C169", "title": "Reading a target gives back what follows it and forgets the target read before", "statement": "UnmarshalFrom splits the data into the target and what follows it; the object then holds the components of that target and of no other, whatever it held before.", "quantifier": "all data, all objects in whatever state", "why_tests_cant": "the object may hold any earlier target; tests start from a new one", "anchors": ["net/uri/uri.go: URI.UnmarshalFrom, URI.Unmarshal, URI.UnmarshalFromString, URI.Reinit"]}
{"id": "C170", "title": "A pool used by many threads keeps its limit and gives each object to one holder", "statement": "Whatever threads call Get, Put, Close and run Clean, and however their steps interleave: an object handed out is held by nobody else and was not closed; never more objects exist unclosed than MaxItems; Get returns nothing only when MaxItems objects exist; a stopped pool stays stopped.", "quantifier": "all limits, all numbers of threads, all interleavings of the atomic operations of the code", "why_tests_cant": "the counter, the state and the lists are changed in separate atomic steps; a test sees few interleavings", "anchors": ["pool/lifo.go: LIFO.Get, LIFO.Put, LIFO.Close, LIFO.Clean, LIFO.Init, LIFO.makeNew, LIFO.popHead, LIFO.pushHead"]}
{"id": "C171", "title": "Listeners get events in one order, whichever goroutines dispatch them", "statement": "Whatever goroutines dispatch events, add and remove listeners on one event target, and however they interleave: there is one order of all calls such that exactly those handlers are called, in that order, that the calls would have called one after the other; every call comes back.", "quantifier": "all numbers of goroutines, all calls, all interleavings, all handlers", "why_tests_cant": "the order of calls, and whether each comes back, depends on the schedule", "anchors": ["event/target.go: EventTarget.DispatchEvent, EventTarget.AddEventListener, EventTarget.RemoveEventListener"]}
{"id": "C172", "title": "Application status listeners hear every status, in order", "statement": "Whatever goroutines change the application status and register channels for it: the status read is the one stored last, each registered channel is offered the statuses stored since, each once and in the order they were stored, and no registration undoes another.", "quantifier": "all numbers of goroutines, all changes and registrations, all interleavings", "why_tests_cant": "a registration is lost only under some schedules; the order must hold under all", "anchors": ["achaemenid/status.go: status.changeState, status.NotifyStatus, status.Status"]}
{"id": "C173", "title": "TCP stream status changed by many goroutines", "statement": "Whatever goroutines set the status of a TCP stream: every change starts from the status the one before left, of several CompareAndSwap calls for the same change exactly one wins, a listener is told only statuses that were stored, each no more often than it was stored, in the order they were stored, and the last one it is told is the stream's status.", "quantifier": "all numbers of goroutines, all calls, all interleavings", "why_tests_cant": "who wins and in which order listeners are told depends on the schedule", "anchors": ["net/tcp/stream-status.go: status.Store, status.CompareAndSwap, status.notify"]}
{"id": "C174", "title": "Calls on one atomic time from many goroutines", "statement": "However calls of Load, Store, Swap, CompareAndSwap and Add on one atomic unix time interleave, each call takes effect at one moment between its beginning and its return: Load returns the time there is at that moment, Store, Swap and Add change it from that to what they are to, a compare-and-swap succeeds only from the time it was given and leaves the time alone otherwise, at most one of several that start from the same time wins, and to a goroutine that reads twice the time does not go backwards while others only move it forward.", "quantifier": "every number of goroutines, all times and durations, every interleaving of the operations on memory", "why_tests_cant": "The failures need a step of one goroutine between the two operations on memory of another.", "anchors": ["time/unix/atomic.go: Atomic.Load, Atomic.Store, Atomic.Swap, Atomic.CompareAndSwap, Atomic.Add"]}
{"id": "C175", "title": "Web files and the main page are served from the application's directories", "statement": "A request that no service takes is answered 200 with the file its path names in the directory gui, at any depth, and with the main page of the language when there is no such file; setting up the assets from the application's directory gives these two directories, and no request stops the server.", "quantifier": "all directory trees, all paths, all contents, all earlier calls on the directories", "why_tests_cant": "Whether a path is answered depends on the whole tree and on which entries are open; the failures are of whole classes of paths.", "anchors": ["www/assets.go: Assets.Init", "net/http/services/serve-www.go: serveWWWService.ServeHTTP", "os/default/file-directory.go: FileDirectory.FileByPath, FileDirectory.File, FileDirectory.Directory", "os/default/file.go: File.Data, File.MediaType"]}
{"id": "C176", "title": "The code generator gives every method the code of its own type", "statement": "CompleteMethods writes, into every encoder, decoder and length method of a file, the code for the fields of that method's own receiver type, in order, each at the place the layout of the struct gives it, replaces nothing but the bodies of those methods, and comes back. False in general: a type declared below its methods, a constant or octal array length, a receiver that is not a named pointer, a struct without a name, and two types whose methods use one receiver name all break it.", "quantifier": "every Go file, as the list of its type declarations and methods, with any fields, receivers, names and positions", "why_tests_cant": "the effect depends on the order of all the declarations of the file and on the names of receivers; tests show a few files", "anchors": ["syllab/generator.go:CompleteMethods", "syllab/generator.go:make", "syllab/generator.go:getSLIAsString", "file/file.go:ReplaceLocation"]}
{"id": "C177", "title": "The errors of the HTTP package are told apart and give their own status", "statement": "Two different errors of the HTTP package never compare equal, each is found in the register of errors under its own media type and identifier, and setting the status of a response by an error, alone or chained, gives 431 for headers that are too large, 501 for an unsupported transfer encoding and 400 for every other one. False: an unsupported media type and a bad host are initialised with the text of the unsupported transfer encoding, so that they compare equal to it, answer 501, and are found as one another in the register.", "quantifier": "all errors of the package and of other packages, all chains around them, all identifier functions, all responses, both builds", "why_tests_cant": "Which errors collide depends on all pairs of texts and on the identifier function; a test compares the pairs its author thinks of, with one hash.", "anchors": ["net/http/errors/init.go init", "net/http/response.go SetStatusByError", "error/error.go IsEqual", "errors/errors.go Register", "error/chain-error.go ChainError"]}
{"id": "C178", "title": "Handing one codec to another moves the data and comes back", "statement": "destination.Decode(source) and source.Encode(destination) come back, and when they report no error the destination holds what the source's Marshal gives, so that marshalling the destination gives the same bytes. In the code a JSON codec takes the source's bytes and gives them again, and a compressor or decompressor refuses; but giving anything to a socket or stream never ends, because each of the two asks the other, so an sRPC request or response is never sent; an empty HTTP body reports success and moves nothing, so a request that has just been made takes nothing from its stream; and sending an HTTP message with a JSON body overwrites the body with what the stream gives.", "quantifier": "every pair of codecs (JSON over any application type, gzip and flate compressors and decompressors, sockets, streams, HTTP bodies nested to any depth), every state they can be in, and every number of calls", "why_tests_cant": "Whether two codecs that call each other ever come back depends on the pair and on how deeply bodies are nested; no run of a test shows that a call never ends, and the pairs and their states are unbounded.", "anchors": ["json/codec.go:Codec.Decode", "json/codec.go:Codec.Encode", "compress/gzip/compressor.go:Compressor.Decode", "compress/gzip/decompressor.go:Decompressor.Encode", "compress/flate/compressor.go:Compressor.Encode", "compress/flate/decompressor.go:Decompressor.Decode", "net/socket-codec.go:Socket.Decode", "net/stream-codec.go:Stream.Encode", "net/http/body.go:body.Decode", "net/uri/uri.go:URI.Encode", "net/srpc/handler.go:SendBidirectionalRequest", "net/http/v1/handler.go:HandleIncomeRequest"]}
{"id": "C179", "title": "Floats compare as numbers and their texts read back", "statement": "Two floats compare equal exactly when they are the same number, the text of a float reads back as that float, different numbers have different texts, and a text that is no number or out of range is refused. In the code NaN is not equal to itself, so it is not equal to what its text reads back; the two zeros are equal with different texts; and a bad text is not refused: the receiver loses its value for a zero or an infinity and no error is given.", "quantifier": "all floats of both sizes, all texts, all values held before", "why_tests_cant": "There are 2^64 floats and unboundedly many texts; a test reads back the few its author thinks of.", "anchors": ["math/float/float-32.go: Equal, ToString, FromString", "math/float/float-64.go: Equal, ToString, FromString"]}
{"id": "C180", "title": "A float written as JSON is read back", "statement": "A float64 written by the JSON encoder and followed by the end of its value is read back as the same float without an error by both decoders, which then stand at that end; a text that is no float's is reported as an error with zero; a decoder never gives the value of another field.", "quantifier": "every float64, any text before it without digits, anything after the end of the value, any implementation of strconv that keeps its documented promises", "why_tests_cant": "2^64 floats and unboundedly many surrounding texts", "anchors": ["json/encode.go: EncodeFloat32, EncodeFloat64", "json/decode.go: DecodeFloat64AsNumber", "json/decode-minified.go: DecodeFloat64AsNumber"]}
{"id": "C181", "title": "The script of a new page has one name, which JavaScript takes", "statement": "MakeNewPage gives a script that declares, registers and extends the page under one and the same name, a name that is given is used as it is, otherwise one is made from the scope; the name made is an identifier of JavaScript, pages of different scopes have different names, and what was made for one page does not depend on the pages made before.", "quantifier": "every request: any domain, scope and name; any two requests after each other", "why_tests_cant": "unboundedly many names", "anchors": ["modules/gui/services/new-page/logic.go: MakeNewPage, jsPageFile", "modules/gui/services/new-page/request.go: Request"]}
{"id": "C182", "title": "Unknown keys are skipped and the reading loop ends", "statement": "A client that reads an object key by key until End, takes the number under the key it wants and calls NotFoundKey under every other key gets the number of the last field with its key, without an error, whatever the other fields are and wherever they stand, and its loop ends on every text.", "quantifier": "every wanted key and number of every width, every list of other fields with any names and values, every text", "why_tests_cant": "unboundedly many fields, names and values; that a loop never ends cannot be seen by a test", "anchors": ["json/decode.go: Decoder.NotFoundKey", "json/decode.go: Decoder.End", "json/decode.go: Decoder.DecodeKey", "json/decode.go: Decoder.FindEndToken", "json/decode.go: Decoder.DecodeUInt64"]}
{"id": "C183", "title": "An expiry set on a cookie is read back", "statement": "SetExpire writes the RFC 1123 date of the given instant in GMT, with the right day of the week, day, month and year; GetExpire reads it back as the same instant, and reads the older layout with dashes too.", "quantifier": "every instant from year 1 on, with any fraction of a second; every valid date of the calendar and second of the day in both layouts", "why_tests_cant": "3*10^11 instants, leap years of three kinds, and the years after 9999", "anchors": ["net/http/header-set-cookie.go: SetCookie.SetExpire", "net/http/header-set-cookie.go: SetCookie.GetExpire", "net/http/const.go: TimeFormat"]}
