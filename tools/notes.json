{
 "C01": "Proved for every value, buffer and codec on a little-endian host; a big-endian host is C02.",
 "C02": "Refuted: on big-endian hosts the types BigEndian and LittleEndian swap wire order. The exact set of values that survive is proved.",
 "C03": "Proved for every text and every earlier value of the receiver.",
 "C04": "Refuted: the overflow check compares the truncated product with the old accumulator, so e.g. 18446744073709551616 parses as 0. Proved: exact below 2^64, success means value mod 2^64, exact decision on twenty digits. The exact set of numerals taken, with the value each is taken as, is C04_uint64_exact.",
 "C05": "Proved for every number of every width.",
 "C06": "Proved for every sequence of insertions and removals.",
 "C07": "Proved for every delay and every current time.",
 "C08": "Safety is proved for every history. Liveness/order hold for single-shot Start/Stop histories; refuted for periodic timers (a periodic timer keeps its old heap key; for every queue where one at the head is due again at each check, no other timer is ever called). Stop succeeds also for an already stopped timer, for every queue and timer.",
 "C09": "False in the code: starting a timer crashes if all queued timers were stopped, and self-deadlocks if the earliest was rescheduled. Proved: without rescheduling it never blocks, and completes if some timer is pending or none was stopped; Tick refuses a first or interval below one and changes nothing.",
 "C10": "False when late by a period or more (sign error in the code); proved when late by less than a period. The heap key is not updated.",
 "C100": "The first two parts are proved; refuted: Marshal follows the object after its first call, Marshal reports a failing ToJSON, UnmarshalFrom takes the data.",
 "C101": "Proved for every history of registrations.",
 "C102": "Lookups proved; refuted: no lookup ever returns an error; only a type without both parts is refused.",
 "C103": "Quiet, restart and the bound are proved for every state. Spacing is refuted: once due, eleven checks at any times close the stream. The delayed acknowledgement does nothing (refuted).",
 "C104": "The limit is exact below 256 retries; the wrap and the missing reset on Reinit are refuted in general. Any number of retries: C104_count_exact.",
 "C105": "Right for eight kinds (next option) and for MSS (value); for the others the wrong offset or width is refuted for every data.",
 "C106": "Proved for scripts; for pages every slot leaves its closing brace (refuted in general, exact output proved). Wrong numbers vanish silently or panic (refuted).",
 "C107": "Insertion is proved; lost style sheets on a minifier error, misplaced or lost pages and that the combined script never holds any page are refuted in general.",
 "C108": "Exact for imports with apostrophes preceded by a separator byte; a script that begins with an import, or any keyword without two apostrophes after it, panics (refuted).",
 "C109": "Termination, completeness and uniqueness are proved; a file that is imported from one place comes after the files it imports, however often those are imported (C109_order_once_partial). Refuted for a file imported from two places, on a graph without cycles.",
 "C11": "False: a ticker limited to n delivers n+1 ticks; exact count proved.",
 "C110": "No line feed is left, plain text is kept and a comment is removed exactly; joined words and non-idempotence are refuted for all words and comments. Pages of any number of texts, line ends and comments: C110_page_exact.",
 "C111": "Proved for every schedule of the two threads while the channel is open. Refuted after Close: receives then succeed without a tick, any number of them.",
 "C112": "Proved for one-shot timers armed at most once and closed at most once, for every schedule, and that nothing follows a quiet close. Refuted: a ticker or a restarted timer closed while it is being called panics, closing twice panics, closing after it fired leaves the channel open.",
 "C113": "Proved for listeners that return. Refuted: a listener that panics keeps the later ones from the event and keeps the mutex, so every later log call hangs.",
 "C114": "Proved for listeners that return. Refuted: a panic of a log listener makes the handler wait for ever; a listener that panics on the panic event lets the panic escape.",
 "C115": "What Init reports is characterised exactly for every outcome of its parts. Refuted: a failure of the cryptography part and a panic of any part are reported as success.",
 "C116": "Status and order proved for every history; completeness while there are no more changes than the channel has room for; refuted: a change sent to a full channel is lost for that listener, so its last value can be old.",
 "C117": "The exact condition for stopping is proved. Refuted: no history ever makes an application running, so no signal stops it.",
 "C118": "Refuted: no history makes a queue one can write to; even with a first element in place writes are lost and not counted.",
 "C119": "Exact: a read returns if and only if the stream is reported complete. Refuted: writes never return, closing and time-outs are swallowed, a status change on a new socket blocks.",
 "C12": "False once the position has advanced (no wrap-around); exact in-range condition and exact firing tick proved. C12_alone_refuted says for every wheel, interval and period whether and when a single timer makes the wheel panic. Which sizes Init takes is proved exactly; a wheel without slots is made and crashes on its first tick.",
 "C120": "Exact up to a billionth if and only if the product fits 64 bits; refuted for larger products, and for trillionths and quadrillionths.",
 "C121": "Booleans proved, printing of signed integers proved. Refuted: unknown texts are no error; no signed integer is ever read.",
 "C122": "Proved for every text and all bounds.",
 "C123": "Views, aliasing and the round trip from elements proved. Refuted: from bytes and back only whole elements survive (exact condition); a string made from a slice changes with it.",
 "C124": "Proved for finite types, with the exact description. Refuted: recursive types overflow the stack; the other kinds of type are lost.",
 "C125": "Proved for declarations of two groups with a named first parameter, and that nothing else changes. Refuted: groups are counted instead of parameters, methods count as functions, and the exact set of panicking sources is proved not empty.",
 "C126": "Files, syntax errors and the import table proved. Refuted: every file is read whatever its name; a package whose name is not the last element of its path is not found.",
 "C127": "Proved for paths up to 252 hops and frames up to 255 bytes; refuted for next hops above 252, where a frame can circle for ever.",
 "C128": "Proved before the last hop. Refuted: at the last hop the frame vanishes silently; errors of the other side are lost.",
 "C129": "Proved for a table that has the stream. Refuted: no history makes one, every proper segment panics.",
 "C13": "All nine integer field types; offsets in the 32-bit address space.",
 "C130": "Fixed part proved; next header proved without optional data, refuted for every header with some.",
 "C131": "Answer, errors of sending and non-termination characterised exactly. Refuted: time-outs are not reported, a failed send leaves the stream open.",
 "C132": "Answer and the exact condition for waiting for ever proved. Refuted: time-outs and ends of the connection are not reported; unknown services are not answered.",
 "C133": "A deadline in the future for both directions is proved; every other clause is refuted in general.",
 "C134": "Proved once the map exists; refuted for every Pages value another package can make.",
 "C135": "Proved for all sets of actions.",
 "C136": "Proved for a character that is followed by another or takes four bytes, with the exact condition for whole texts; refuted for shorter last characters.",
 "C137": "Hidden proved for every path to a file, refuted for directories; the sort order is refuted unless all files are of one age.",
 "C138": "Exact conditions proved for every number of processors, threads and core; refuted outside them.",
 "C139": "Only the round trip holds; secrecy and authenticity are refuted for every cipher, key and buffer.",
 "C14": "Strings, typed arrays of 13 element types, arrays of strings and records of any number of such fields, for both the copying and the aliasing getters. Element memory is modelled for a little-endian host; floats and complex elements as bit patterns.",
 "C140": "Errors of the codec proved; failures of the minifier and the parts of a URN refuted.",
 "C141": "One core, one thread at a time; counters unbounded.",
 "C142": "False in general (C142_move_refuted, C142_left_refuted); the exact condition to end and the effect then are C142_move_partial. The wake-up theorem supposes a wake-up time other than 0.",
 "C143": "Tickers are excluded from the positive part (C08_periodic_starves_refuted: a ticker keeps its old key). C143_early needs no such restriction. Refuted: C143_earlier_refuted for every history, C143_next_refuted by a history.",
 "C144": "Exact for trees whose directories are all opened (C144_search_partial, C144_dependency_partial), refuted for others. The order of a map is the order of a list over which the theorems quantify; sort.Strings is modelled as an insertion sort.",
 "C145": "The disk is a contract: no regular file is opened by an empty path or one that ends in a slash. Aliasing of slices given to Unmarshal and Prepend is not modelled.",
 "C146": "CRC-32 is modelled bit by bit from its definition (library code). The four-byte bound is exact: C146_collision_refuted gives five bytes. The checksum is proved to be the CRC-32 of the standard for every content.",
 "C147": "The full statement is false (C147_missing_refuted, C147_beside_refuted, C147_fresh_refuted, C147_makes_refuted).",
 "C148": "The full statement is false (C148_left_out_refuted). Proved for all projects whose language names have no dot. File(name) is taken to make files as its comment says; that the directory of os/default does not is C55.",
 "C149": "The full statement is false (C149_stale_refuted, C149_copy_refuted, C149_inside_refuted).",
 "C15": "False of the code: booleans keep an old 1, GetFixedByteArray always returns nothing, the halves of complex numbers overlap on write and not on read. The _partial theorems give the exact result for every input.",
 "C150": "The full statement is false (C150_main_refuted, C150_empty_refuted, C150_again_refuted, C150_relative_refuted); without landings/main.html nothing changes (C150_no_main_page).",
 "C151": "The full statement is false (C151_grows_refuted, C151_never_settles_refuted, C151_lost_refuted).",
 "C152": "Proved for all projects whose language names have no dot.",
 "C153": "The full statement is false (C153_none_refuted).",
 "C154": "The full statement is false (C154_error_refuted).",
 "C155": "The documented 'in given order' and 'only those flags that have been set' fail in three ways: order of the line instead of declaration, a flag set twice visited twice, and leftovers after a second Init (C155_*_refuted). What is visited exactly is proved.",
 "C156": "filepath.Rel and Clean of Go's library are modelled from their documentation on Unix, for an absolute working directory. Symbolic links are not modelled: 'leads to the same place' is by elements of the path.",
 "C157": "The old use is over after every Reinit without error. False: an unused or fired timer is refused, a reinitialised timer can never be started or made to tick again, and Reset panics while it is still queued.",
 "C158": "Never told to sleep beyond a due time (started and stopped timers). False: with nothing queued it does not sleep at all, and it is not woken by a new timer, whose callback is late.",
 "C159": "Everything read from it is as for a new one. False: the target of a reused request is written as nothing until one is read from text, and header lines of every earlier use remain as empty lines.",
 "C16": "True for unsigned integers of all widths, non-empty number lists, keys, booleans, and base64 byte strings (given room). False for negative integers with the non-minified decoder (sign dropped), strings needing escapes (not escaped; survive iff no quote) and empty number lists; exact results proved.",
 "C160": "Proved when Stop finds the goroutine waiting. Refuted: Stop during a tick reports a wheel stopped already and leaks the goroutine; a wheel started again never ticks.",
 "C161": "Proved from 1970 on in both languages; earlier times are named rightly at some midnights only; refuted: sets of several days and other languages have no name. C161_named_exact covers all times, before 1970 too.",
 "C162": "Each addition is counted once, in each part. Refuted: nothing is carried from nanoseconds to seconds, and two swaps at once may return and leave times nobody stored.",
 "C163": "Partial: a Cache-Control line with an empty value hides the added one, and every further call adds another (C163_empty_refuted).",
 "C164": "Refuted: a timer that runs after it was started and before the thread waits leaves the thread waiting for ever (C164_lost_refuted; the code has a TODO asking about it). The scheduler package that Yield belongs to is not in the repository: a wake-up is taken to reach only a thread that waits. Proved: never early, the rest of the sentence for the functions that make timers.",
 "C165": "Proved for every schedule of atomic steps where one goroutine at a time uses a timer.",
 "C166": "Proved for a timer set once and not periodic (C166_stop_partial). False otherwise: the callback is called after Stop answered when the timer was set again or is periodic (C166_stop_late_refuted); once the core turns to a timer rescheduled while it waited, the lock is never released again, in every continuation (C166_reschedule_refuted); Stop crashes when the callback restarts its timer meanwhile (C166_restart_refuted).",
 "C167": "Proved between calls for every schedule. Missing and refuted: in the middle of Stop the count is one too low.",
 "C168": "False: a target with a scheme and a query but without a path announces one byte too few, others up to four too many, and a reset one announces bytes and writes none. Proved exactly when it holds.",
 "C169": "The split is proved for all data. False for the components: those that the new target lacks keep their old values.",
 "C17": "Five components as stated; for host and zone (not in the claim) the exact set of texts that survive is proved as well.",
 "C170": "Proved: every object is in exactly one place, one holder at a time, the counter is exact at every moment, the exact condition of a refusal, and that nothing leaves a stopped pool. False: the limit is exceeded while Clean closes what it has subtracted (and by the empty slots of C26), Get refuses because of another refusal under way, and Init called again panics but restarts the pool with closed objects in it.",
 "C171": "The order is proved for all handlers, that calls come back for handlers that do not call the target. A handler that calls the target stops it for all goroutines.",
 "C172": "Refuted for registrations that overlap: one of them is dropped and hears nothing again (any state in which a registration under way has not seen the channel). Partial: a channel that every registration under way has seen stays and is offered every later status. Order, no status twice and Status = last stored are proved for all schedules.",
 "C173": "Refuted: two goroutines that store may tell in the other order, so the listener ends with a status the stream no longer has; a status stored while no listener waits is told to nobody. Partial: one goroutine and a waiting listener. Chain, single winner and told-only-what-was-stored are proved for all schedules.",
 "C174": "Proved for the seconds and the nanoseconds apart, and for the whole time of calls that run alone. Refuted: a reader may see a time nobody stored and the time going backwards, because the two parts are two atomic numbers.",
 "C175": "Proved for files right in the directory. Refuted: files below it, the main page (a nil pointer in an interface is taken for a file and the server panics) and the setup.",
 "C176": "Proved for regular files (each type before its methods, named pointer receivers of different names, decimal array lengths, no struct without a name). Missing: all other files, for each of which what happens instead is proved.",
 "C177": "Proved exactly which errors compare equal, and the status and register entry of the others. Refuted: unsupported media type and bad host carry the text of the unsupported transfer encoding.",
 "C178": "False as stated: giving anything to a socket never ends (C178_never_ends_exact, C178_srpc_sends_refuted) and an empty body reports success without moving anything (C178_no_error_means_taken_refuted). Proved exactly: which pairs come back for Decode and Encode, what a JSON codec takes and gives again, who refuses, and what the sRPC and HTTP handlers do with it.",
 "C179": "Equality is exact; texts read back for every float. Refuted: NaN differs from what its text reads back, zeros are equal with two texts, bad texts are not refused. strconv is a parameter, with its promises as a hypothesis that an example library meets.",
 "C18": "Proved for every text and every component.",
 "C180": "Partial: proved for floats that are not negative with the decoder of formatted JSON, and for every float with the minified decoder. Refuted for every negative float (the sign is lost in silence), for infinities and NaN (the next number in the text is read) and for a value with no end (the item read before is given again). strconv is a parameter with its promises as a hypothesis; a library that keeps them is exhibited.",
 "C181": "Partial: one name everywhere proved for every request, and what name is made from the words of a scope; the name made is an identifier exactly when the scope has no dash (refuted for every scope with one: a space is in the name); names differ for different lower-case scopes (refuted for the case of the first letter); refuted for a request used twice, which keeps the first page's name. Names are ASCII.",
 "C182": "Partial: proved for any number of other fields with any names, as long as no comma, bracket or brace is in their values. Refuted otherwise: after a value whose first end is a brace (an object inside) all later fields are lost in silence, after a string with a comma the next field is lost in silence, and on every text of three bytes or more without a quote and without an end the loop never ends. The loop itself is the client's: the repository only has its parts.",
 "C19": "Absolute form proved. Origin form: read back exactly when there is no colon; with one, all before the first colon is taken for the scheme. The serialiser drops the fragment and writes / for an empty path.",
 "C20": "Map iteration order is arbitrary in the theorem (any permutation of the entries).",
 "C21": "The law fails: set on a present name and delete change nothing (C21_set_refuted, C21_del_refuted, for every name and value). Exact behaviour for every history: first write wins. The law is proved for histories whose set/delete name nothing present, and Header_Find is characterised exactly.",
 "C22": "Fails for every single coding and every list of two (C22_last_refuted); exact result in every case in C22_last_exact. (There is no header block serialiser in the repository at this commit, so the property first listed here was replaced.)",
 "C23": "Exact: every legal Set-Cookie round-trips unless HttpOnly/Secure come with SameSite, and then the parser panics. Cookie lines: read one by one they come back; the Next loop always loses the last cookie; AddCookie always panics; empty values are lost.",
 "C24": "Each sanitiser characterised exactly, idempotent, legal input kept. Not only legal octets: ';' passes in values and paths, everything but CR/LF in names (C24_illegal_octets_refuted). Domain: exactly the host names.",
 "C25": "Permutation, descending order and stability proved for every list of entries (NaN excluded from the order), and for every line exactly what its pieces stand for (C25_line_exact, C25_line_total). False as Accept is defined: a parameter before q is taken for the weight (C25_first_parameter_refuted).",
 "C26": "One holder at a time proved for every history; limit proved without clean-up or below 4, exceeded without bound otherwise (for every limit >= 4); not LIFO; an empty slot can hide a stored object.",
 "C27": "Bytes read are a prefix of those written in every history; Read never reads, and the last byte never comes out (refuted for every non-empty history). C27_queue_exact: exactly a queue from which ReadByte takes a byte only when two are there.",
 "C28": "Both directions for every int64 duration.",
 "C29": "Weekday right from 1970 on; before 1970 exactly characterised (wrong or panicking except at some midnights); the hour bit never equals the published constant.",
 "C30": "Strict total order proved; Add exact but without carry, so equal instants compare unequal and repeated adds go back; Since exact only within one second. Durations of either sign, with the exact condition for a carry or borrow: C30_add_exact.",
 "C31": "Every plain field and every flag proved for all segments; SetDataOffset and SetFlagPartOne or into the old bits (exact condition, refuted otherwise).",
 "C32": "All accessors but Options; Options panics exactly when the header length is below 20, which the checker accepts.",
 "C33": "Exact behaviour on every byte string: lists of MSS options terminate; a no-operation or any other option loops forever, a truncated MSS panics. handleOptions is not called by Receive.",
 "C34": "Receive is total; SYN is answered, a client is established by SYN+ACK, one-byte segments are delivered in order. False: a server never becomes established, FIN/RST are ignored, and a segment after one of two or more bytes is inserted before that one's last byte. The receive buffer is modelled by its interface's documentation. Segments in order of any lengths: C34_in_order_exact gives the exact buffer; a bare acknowledgement loses the next data (C34_acknowledgement_refuted).",
 "C35": "Plain fields and flags proved; wrong: IPv4 SetVersion, SetIHL, SetDSCP, FragmentOffset, SetFragmentOffset, FlagCE; IPv6 SetVersion, SetTrafficClass, SetFlowLabel; UDP SetLength, each with its exact behaviour.",
 "C36": "Proved for every accepted packet and every accessor.",
 "C37": "Round trip, uniqueness and totality proved for all addresses and texts; rejection refuted for every text: the error result is always nil, trailing text is ignored, and a text that fails midway leaves a mixture.",
 "C38": "Parsing proved for every valid text but \"::\"; refuted: \"::\" leaves the variable unchanged, errors are never reported, printing panics for every address but the unspecified one.",
 "C39": "Proved for every frame and address.",
 "C40": "Proved for 1 to 252 hops and every path, ports and trailing bytes; refuted beyond (position wraps onto the frame type), for accepted frames shorter than their next hop, and for broadcast frames.",
 "C41": "Order of ports proved for 2 to 255 hops; refuted: the resulting length is wrong for every path, and 0 or 1 hop panics.",
 "C42": "Well-formed packets of padding, data, call, signature and opening frames are processed to the end; every round consumes a byte; the run ends within one round per byte unless it meets an unhandled type. Refuted: unhandled types loop forever; error frames, trailing GP frames and truncated frames panic.",
 "C43": "16 and 32 byte identifiers: layout, time and random part read back for every clock value, distinct random parts distinct identifiers. 8 byte: the seconds are read back within 40 bits; refuted: its random part is overwritten, all identifiers of a second are equal; the id of a 32 byte identifier is its creation second.",
 "C44": "Version, variant and the untouched bits for every random input; canonical text of the value, distinct texts, URN form; the parser computes the UUID into a copy. Refuted: the caller's UUID is unchanged, the package function returns zeros, short texts panic.",
 "C45": "All three parts proved for digit strings of any length; non-digits are not rejected (example).",
 "C46": "Holds for payloads of odd length; for even length refuted with the exact acceptance condition; empty input panics.",
 "C47": "Every list of documented flags followed by nothing or a non-flag sets exactly the named fields in order and leaves the rest; unknown flags are errors; unmentioned fields keep their value for every argument list; parsing is total. Refuted: -name= is read as no value, -- is also reported as bad syntax, NFlag counts all fields.",
 "C48": "Refuted for every object with a non-empty field: the arguments carry no dashes and are refused whole. Holds when all values are empty; with dashes it would hold for non-boolean fields.",
 "C49": "Lookups are proved sound for every history and exact for duplicate-free ones. Refuted: duplicates return no error, deleting a duplicate drops the first one's id, the listing starts with 512 nils and keeps deleted services.",
 "C50": "Proved for every history in both modes.",
 "C51": "Proved for all histories of add/remove/dispatch with listeners that do not call the target back (C52 covers those).",
 "C52": "Refuted: the mutex is held while listeners run, so any re-entrant call blocks forever and the target stays locked.",
 "C53": "Proved, for any content of the spare capacity.",
 "C54": "Join and Init proved for every path; parts contain separators exactly for paths with two adjacent separators; the base keeps the dot; decoding keeps a stale extension; the directory question panics on paths without separator.",
 "C55": "Refuted: File/Directory compare an interface holding a nil pointer with nil, so nothing is ever created; deep paths look for a directory named like the file. Directory walks are proved.",
 "C56": "Full.",
 "C57": "Refuted: read and write are swapped, a negative read timeout sets a past deadline, timeouts without a read deadline are reported as read timeouts. The joint setter and the report with both deadlines are proved.",
 "C58": "Bounded by ten probes for every schedule; restart and idle proved. Refuted for every schedule of due checks: ten probes are sent, one more than configured, and a check at the due instant does not move the due time. Switched off it never probes and loses nothing (C58_switch). Refuted for a stream used again: Reinit clears the interval, so every check probes and the eleventh closes, at any times.",
 "C59": "Decomposition proved for texts with a slash; refuted otherwise (panic).",
 "C60": "Equality is an equivalence on all errors without a nil pointer inside and is preserved by wrapping at any depth. Refuted only for chaining nil.",
 "C61": "Round trip for every identifier, exact result for every text; no panic up to eleven characters. Refuted: longer texts panic, malformed texts give id 0 without error.",
 "C62": "For every method the texts on which it panics or never returns are given exactly (the _exact_partial theorems); on all others it returns and leaves a suffix of the text. Refuted: a list of numbers without a terminator after an earlier number loops for ever; truncated booleans and null checks panic; a number at the end of the text is replaced by the one decoded before.",
 "C63": "Termination, values added and the exact error proved for every text. The semicolon rule is refuted in general: the constant is defined as ':', so semicolons are accepted and colons rejected.",
 "C64": "Refuted in general: the text cached by a parse, by Marshal or by Reinit is returned whatever the components were set to later. Proved while nothing is cached.",
 "C65": "Refuted; the exact set of panicking inputs is proved.",
 "C66": "Refuted for every authority with a user part (the slice keeps the wrong side of the @): the host is the user; proved without one. C66_authority_exact: right exactly without a user part.",
 "C67": "Proved for lines with a charset or boundary parameter; without a parameter the subtype is lost, without the line the reader panics (refuted). One parameter of any text: C67_parameter_exact.",
 "C68": "Ages at or below zero all become 0, as documented.",
 "C69": "Refuted; the exact set of crashing texts is proved.",
 "C70": "Order and arithmetic proved; the seconds accessor returns nanoseconds and the nanosecond accessor is always 0 or panics (refuted for every time).",
 "C71": "Seconds right; nanosecond periods right for whole seconds, for every period below a second wrong from the first second on, and for longer periods that are no whole number of seconds never too few, with the exact condition under which the count is right (C71_periods_mixed_exact).",
 "C72": "Seconds right; from nanoseconds wrong for every duration of at least 60, 3600, ... ns because the constants are 10^9 too small.",
 "C73": "A store alone is read back; torn reads, mixed stores and failed swaps that change the time are shown for all different times.",
 "C74": "Closed once and not held proved when no call races with Close; Close never closes the hot object and the victims, and a racing Get hands out a closed object.",
 "C75": "Grow and Reset proved; GrowLen wrong on a new buffer; Set keeps the old read position, so Read can panic (exact condition).",
 "C76": "Acceptance of valid packets proved for UDP and IPv4 from 40 bytes; short valid IPv4 packets are refused, inconsistent lengths accepted; the payload carries the trailing bytes.",
 "C77": "False for every choice of delays: the minimum starts at 0, so the timer is never started.",
 "C78": "Proved for every address; the octets are read against the prefixes of RFC 4291 stated separately.",
 "C79": "Registration proved for every sequence; switching, initialisation from a frame and writing refuted in general.",
 "C80": "Every port is visited in 256 rounds, but the loop never ends (refuted for every number of rounds).",
 "C81": "The random part and the stored type byte hold. Refuted for every input: the time is never stored and Type returns 0.",
 "C82": "Dispatch refines the specification and covers every call except a group reached without arguments that has a help command, which panics. Root always panics.",
 "C83": "Refuted: the unchecked type assertion panics for every plain Go error, including the ones ToGoError makes.",
 "C84": "Refuted: options are stored and never looked at.",
 "C85": "Proved for errors sharing neither id nor media type; refuted for another error under the same id.",
 "C86": "Proved for every schedule of reports.",
 "C87": "Proved for every sequence of reports.",
 "C88": "Exact for a request whose host is known. Refuted: neither parsing a target nor setting its authority nor checking the Host line makes the host known, so every request is served whatever host it names (C88_any_host_refuted, C88_other_host_refuted, C88_host_line_refuted); a domain that begins with a digit or with www. is never served under its own name.",
 "C89": "Refuted for every identifier: SetError writes base64, GetError reads decimal. Proved: decimal texts are read right, statuses and redirects are right.",
 "C90": "Refuted: a POST to /s with a long query panics, refused hosts and the landing path get a response without a status, a missing main page panics.",
 "C91": "Proved for non-empty bodies when the service wrote no length itself; refuted for empty bodies (announced as chunked) and for services that set the length (it is written twice).",
 "C92": "Proved for the field types the generator supports; refuted for float64 arrays and string arrays wherever they stand.",
 "C93": "Refuted for []uint64 (no room is counted) and []string (entries are not counted).",
 "C94": "Refuted for []uint64, for nested named types (written over the start of the outer record), float slices and int fields (dropped). A nested record is read from the start of the outer one, whatever fields stand before it (C94_nested_read_refuted).",
 "C95": "Partial: proved for sequences without negative integers and without a list of numbers after a fixed array (general refutations for both); empty lists, quotes in strings and a buffer without room for base64 are excluded (refuted under C16). A null field leaves arrays, strings and the place in the text as they were, and the next key is found.",
 "C96": "Partial: proved for sequences where a boolean comes last, without identifier lists and without a list after a fixed array. Refuted in general: a key after a boolean loses its first character; no list of 32-byte identifiers is accepted.",
 "C97": "Proved for every source, level and history of calls; the library's compress and decompress are parameters that invert each other.",
 "C98": "Refuted in general for gzip (no reading call ever returns an error), for damaged data in both, and for WriteTo's count; partial: flate reports a failing source, and damage only from WriteTo.",
 "C99": "Refuted in general: the first successful reading call freezes the content for ever, and data given to the gzip decompressor never shows in Marshal, MarshalTo or Len. Partial: the source is followed until the first reading call, and always by the compressors' WriteTo.",
 "C183": "Partial: proved for all instants of the years 1 to 9999, to the second (exactly those on a whole second come back unchanged), for both layouts of every date, and through the Set-Cookie line of a cookie without a same-site mode; refuted for every instant from year 10000 on: the expiry read is the start of year 1. Go's time package is modelled for these two layouts only: names in the spelling of the layout, zone GMT, full widths, no fraction; nothing is claimed of other texts it takes."
}