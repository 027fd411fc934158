# Formal model of GeniusesGroup/memar-go in Rocq (Coq 8.16.1)

## 1. What is trusted

* Coq's kernel (8.16.1) and its standard library. No axioms of our own; what
  `Print Assumptions` reports is listed in section 6.
* The reading of the Go text. /repo was read, never built or run. Several
  packages do not compile together at the pinned commit (imports of moved
  packages, type mismatches); they are modelled by what their text says.
* Go semantics as written down in `Go.v`: bytes are integers in [0,256), fixed
  width integers wrap explicitly, slices are lists, an out-of-range index or
  slice expression is the value `Panic`, an error return is a value, a loop is
  structural recursion, or recursion on fuel whose exhaustion is a separate
  value that theorems exclude or are about.
* A slice's capacity is taken to be its length, except where a model carries the
  spare capacity itself (FlatModel, the JSON encoder). In Go `s[lo:hi]` may reach
  into spare capacity instead of panicking. A theorem that says an operation does
  not panic is not affected: every slice expression it evaluates is within the
  length, and gives the same result whatever the capacity. A theorem that says an
  operation panics is about slices without spare capacity, such as the ones `make`
  and conversions give. `s[lo:]` and indexing go by the length in Go too.
* Calls into Go's own library or runtime (strconv, time, sync, base64, rand) are modelled
  by their documented behaviour; each such place says so in its comment.

## 2. Layout

`rocq/theories/`, one group of files per area:

* `Go.v`, `GoFacts.v` — Go values and generic lemmas.
* `<Area>Model.v` — the model: definitions only, each citing file and lines.
* `<Area>Spec.v` — small independent specification used in statements.
* `<Area>Proofs.v` — lemmas.
* `<Area>Theorems.v` — the property theorems and nothing else: each is
  closed by `exact`, followed by `Print Assumptions`, beside an `Example` that
  meets its hypotheses.

Naming: `Cnn_...` for property nn. Suffix `_partial`: only part of the English
property. Suffix `_refuted`: the code violates the English property, with a
concrete witness; the theorem beside it says what does hold and when.

## 3. Plan per property

| id | model | proof |
|----|-------|-------|
| C01 | put/get functions byte by byte with shifts | digits of base 256; frame law by list reasoning |
| C02 | the big-endian-host variants | refutation by witness; exact set of palindromic values where it holds |
| C03 | the digit loop with a wider accumulator | loop invariant: accumulator = value of prefix |
| C04 | the 64-bit loop with wrapping multiply | refutation; correctness below 2^64; exact characterisation; exact set of accepted numerals |
| C05 | strconv formatting as decimal digits | induction on digits |
| C06 | SiftUp/SiftDown/Delete on a list of (timer, when) | permutation + heap-order invariant over op sequences |
| C07 | `when` with 64-bit wrap | case analysis |
| C08 | timers' status machine + scheduler | invariant over histories |
| C09 | AddTimer/cleanTimers with lock | witness; guard under which it completes |
| C10 | runOneTimer arithmetic | witness; guard |
| C11 | LimitTicker counter | induction on ticks |
| C12 | wheel add and tick | witness; guard |
| C13 | syllab set/get at offset | splice lemmas on lists |
| C14 | stack and heap writing | splice lemmas, induction over arrays |
| C15 | bool/complex/fixed array | witness; guard |
| C16 | JSON encoder/decoder state | witness for escapes and negative numbers; guard |
| C17 | Escape/Unescape | induction on the string, finite sweep over bytes |
| C18 | Unescape | independent grammar of escapes |
| C19 | UnmarshalFromString/marshalTo | index scanning lemmas |
| C20 | query multimap | refinement to list of pairs |
| C21 | header as slice of structs | refinement; witness for set/del |
| C22 | Last on encoding lists | last-index lemmas; witness for all lists |
| C23 | cookie codecs | witness; guard |
| C24 | sanitisers | filter lemmas |
| C25 | insertMime/sortMimes | sortedness, permutation, stability; every line of the header exactly |
| C26 | pool state machine | invariant over histories |
| C27 | Flat buffer | witness; write-side theorem; any history against a queue that keeps its last byte (C27_queue_exact) |
| C28 | duration arithmetic | truncated division |
| C29 | weekday/dayhour | arithmetic; witness |
| C30 | unix times | lexicographic order; witness for carry; durations of either sign |
| C31 | TCP field get/set | byte update lemmas |
| C32 | CheckSegment + accessors | witness; guard |
| C33 | handleOptions with fuel | witness for hang; exact set of terminating inputs |
| C34 | stream state machine | reachable-state invariant; witness; exact buffer for segments in order of any lengths |
| C35 | IPv4/IPv6/UDP fields | byte update lemmas; witnesses |
| C36 | checkers and accessors | case analysis |
| C37 | IPv4 text | digit loops |
| C38 | IPv6 text | witness; parse of eight groups |
| C39 | GP frame | byte lemmas |
| C40 | Chapar frame | induction on hops; witness |
| C41 | CopyReverseTo with byte counters | loop invariant; witness |
| C42 | HandleFrames with fuel | witness; progress guard |
| C43 | identifiers | byte lemmas; witness |
| C44 | RFC 4122 | bit sweep; injectivity of hex |
| C45 | Luhn loop | equivalence with spec sum; error detection |
| C46 | Luhn checksum | parity analysis; witness |
| C47 | FlagSet.Parse | small-step parser vs. grammar |
| C48 | ToCLA/FromCLA | witness |
| C49 | registry maps and list | refinement; witness |
| C50 | error registry | refinement to finite map |
| C51 | event target | refinement to list |
| C52 | event target lock | witness: state with lock held |
| C53 | ReplaceLocation | induction on edits |
| C54 | path parts, extension | induction; witness |
| C55 | directory maps | witness; guard |
| C56 | CheckUserType | bitwise reasoning |
| C57 | socket deadlines | witness; guard |
| C58 | keep-alive: start, check, switching on and off, reuse | invariant over schedules; due time going backwards after reuse, by induction over the checks |
| C59 | mediatype parse | induction; witness |
| C60 | errors | equivalence proofs |
| C61 | base64 | sextet arithmetic; witness |
| C62 | JSON decoders with fuel for the list loop | witness for the endless loop; totality of the scalar methods |
| C63 | query text parser with fuel | fuel bound by the text length; witness for the separator |
| C64 | Marshal with the cached text | witness; law while nothing is cached |
| C65 | UnmarshalFromString indices | exact set of panicking texts |
| C66 | Authority.Init | witness; law without user part; exact condition |
| C67 | content type reader | scanning lemmas; witness; one parameter of any text |
| C68 | header numbers, same-site modes | strconv facts of C05 |
| C69 | Cookie UnmarshalFrom | exact set of panicking texts |
| C70 | monotonic time on int64 | arithmetic; witness |
| C71 | elapsed periods | truncated division; witness for all sub-second periods; exact condition for periods of seconds and a fraction |
| C72 | earth durations | truncated division; witness |
| C73 | atomic time, one step per atomic operation, two threads | all schedules by case analysis |
| C74 | pool histories with the closed list | invariant over histories |
| C75 | Grow, GrowLen, Set, Reset | list lemmas |
| C76 | IP/UDP checkers against the RFC layout | case analysis; witnesses |
| C77 | the minimum over asked delays | fold lemma, for every list |
| C78 | IPv6 classes | bit sweep |
| C79 | Chapar connection paths | invariant over registrations; witnesses |
| C80 | byte-counter port loop | induction on rounds |
| C81 | user identifiers | byte lemmas; refutation for every input |
| C82 | SubCommand, ServeCLA on command trees | refinement to a dispatch relation |
| C83 | error conversion | case analysis |
| C84 | listener options | refutation for every history |
| C85 | error registry removal | finite-map lemmas |
| C86 | connection counters as atomic additions of any number of goroutines | invariant over all interleavings: value + what is left to add |
| C87 | traffic counters of one connection | same invariant, prefixes of the programs |
| C88 | CheckHost, host-supported service, every change of a request's target | exact characterisation by cases on the host; invariant over all histories of a request: its host is never filled in; refutations for digit and www. domains |
| C89 | SetError/GetError, Redirect, SetStatusByError | header lemmas, base64 bound: all-digit texts mean ids above 2^62 |
| C90 | ServeHTTP, HandleIncomeRequest, mux and www services over arbitrary services | case analysis, C61 round trip |
| C91 | HandleOutcomeResponse | lines of a header as a list per key |
| C92 | stack indices of generator.go per field kind | induction over the field list |
| C93 | meaning of generated encoders and length functions | the buffer stays fixed part, zeros, contents, zeros |
| C94 | meaning of generated decoders | regions of the wire image, per-field lemmas of C13/C14; induction over the fields before a nested record |
| C95 | client programs over Encoder/Decoder, one call per field | induction over fields; the decoder's leftover prefix and last terminator as invariant; null fields by the text up to the next comma |
| C96 | the same over DecoderUnsafeMinified | induction over fields, exact position after each call |
| C97 | gzip and flate codecs as state machines over an abstract library | invariant on the cache over call sequences |
| C98 | the same | invariant over call sequences (general refutations) |
| C99 | the same, with a source that changes | simulation between the traces with and without the given data |
| C100 | json/codec.go over an abstract application type | invariant on the payload over histories |
| C101 | compress-types registry, Go maps as functions | induction over registrations from the end |
| C102 | mediatypes registry | induction over registrations from the end |
| C103 | TcpExtraModel: `ut_CheckInterval`, `da_CheckInterval` with int64 wrap-around | one-call equations; induction over check times for the bound; doubling invariant for the burst of eleven checks (refutes spacing) |
| C104 | TcpExtraModel: one-octet counters | closed form of n increments modulo 256; any number, modulo 256 |
| C105 | TcpExtraModel: one constructor per option view, `NextOption`, `opt_Value`; RFC lengths in TcpExtraSpec | slice arithmetic per kind; wrong kinds refuted by length or by exact value |
| C106 | WwwModel: `replace_loop` for both markers, panics and fuel explicit; WwwSpec: `script`, `page`, `filled` | first-occurrence lemma for markers without self-overlap; induction over slots; totality by length |
| C107 | WwwModel: `mixCSSToJS`, `mixHTMLToJS`, `mixHTMLTemplateToJS`, `localeAndMixJSFile` over an arbitrary CSS minifier | first-occurrence and list surgery; independence of the result from the pages |
| C108 | WwwModel: `extract` with in-place copy and cut; WwwSpec: `source`, `code` | one-turn lemma, induction over imports; invariant "no keyword left"; panics for all inputs of the shape |
| C109 | WwwModel: `recursively`, `inline`, `bundle` over an abstract import graph | invariant over the depth-first traversal with the done set as measure; permutation argument for the order |
| C110 | WwwModel: the regular expression as `html_match` / `html_loop` | copying lemma for plain text, comment matching, fuel monotonicity; pages of any number of texts and gaps |
| C111 | SyncModel: two-thread transition system over the status, the channel and the handler call | C111_pending and C111_never_blocks for every schedule; no phantom receive until closed (_partial), any number of them after (_refuted) |
| C112 | SyncModel | invariant for one-shot timers closed once (_partial); closing while the handler is due panics for tickers after any number of ticks, restarted timers, second closes, and a fired timer cannot be closed (_refuted) |
| C113 | LogModel: logger with its mutex, listeners that may panic, log helpers | exact delivery for calm listeners (_partial), levels as bits; a panicking listener keeps the mutex (_refuted) |
| C114 | LogModel: PanicHandler's type switch, protected goroutine bodies | recovery with calm listeners (_partial), exact event for every panic value; hang when a listener panics, escape when it panics on the report (_refuted) |
| C115 | AppModel.Init/Deinit over outcomes of the parts | exact condition of a nil result (_partial); lost crypto errors and panics (_refuted) |
| C116 | AppModel: listeners as bounded channels with blocked readers | subsequence invariant over all histories; complete within capacity (_partial); loss when full (_refuted) |
| C117 | AppModel.OsSignalHandler | exact condition (_partial); no history reaches Running (_refuted) |
| C118 | SockIoModel queue | every write panics after any history, everything else keeps nothing (_refuted) |
| C119 | SockIoModel socket codec and status | exact condition for reads (_partial); non-termination of writes, of reads after a close, and of status changes on a new socket (_refuted) |
| C120 | MathModel.Calculate with 64-bit wrap-around and each file's divisor | exactness iff no overflow (_partial); whole and trillion/quadrillion (_refuted) |
| C121 | MathModel boolean and signed text | round trip of booleans and exact texts; unknown texts and signed parsing (_refuted) |
| C122 | MathModel.ValidateTextLength | exact, three-way |
| C123 | ConvModel: slice headers over a byte-addressed memory | contents, bounds, round trip, aliasing; truncation and mutable strings (_refuted) |
| C124 | GoParseModel: parseType over a syntax tree with a table of declarations, by depth | describes (separate inductive) by induction on depth; ends iff the type is finite (accessibility); cycles never end |
| C125 | GoParseModel: add_decl, add_decls | induction over the declarations; the last candidate; panic iff an unnamed first parameter |
| C126 | GoParseModel: wanted, Parse, add_import, Base | suffix arithmetic; fold over imports |
| C127 | ChaparNetModel: multiplexers and ports as an arbitrary graph, `Receive` with the depth as fuel | induction on the path; the hop counter as measure for termination; refuted above hop 252 |
| C128 | ChaparNetModel: both sides of a bridge | case analysis of the hop step; two refutations |
| C129 | EdgeModel: the table of streams as a function from the four-part key, on top of the TCP stream model | invariant over histories: the table stays empty; delivery proved for a table that had a stream |
| C130 | EdgeModel: the accessors of the routing header | against the byte layout of RFC 8200 for all headers; refuted for every non-zero length |
| C131 | ClientModel: the state channel as the values it will ever carry and whether it closes; the loop with a turn count | the first ending state decides, by induction on what comes before it; refuted for a time-out, a failed send and a closed channel |
| C132 | ClientModel: range over the same channel; the server side as a case on the service | the same induction; exact condition for waiting for ever |
| C133 | ClientModel over SockModel: deadlines through the socket's time-outs | equations for every socket and clock; refuted for each clause |
| C134 | MiscModel: the list and the possibly nil map | histories by induction; refuted for the zero value |
| C135 | MiscModel: the bit operations on Z | bit by bit, against sets of bit numbers |
| C136 | MiscModel: DecodeCompressCharecter and a reader of whole texts | induction on the characters; exact condition for reading a text to its end |
| C137 | MiscModel: the sort through the contract of the library's sort.Sort; Hidden over FileModel | order of the result for every list; names of every path |
| C138 | MiscModel: the pool of timings and the start-up loop | induction on the loop; exact conditions |
| C139 | MiscModel: the ciphers as written | a reader without the key exists; nothing else to prove |
| C140 | MiscModel: Minify over any codec and minifier; URN | cases; refuted for every failing minifier and every URN |
| C141 | QueueModel over TimingModel: verifyTimerHeap; all operations of TimingModel | one invariant (heap order, no duplicates, status and queue agree, both counters, first key) kept by every operation, incl. Reset, adjusting and compacting (generalised compaction loop) |
| C142 | moveTimers, moveTimersTo, MoveToMe, Reinit; the re-locking of the receiving mutex is Blocked | from the invariant of C141: induction over the queue; the wake-up after a move by running checkTimers on removed entries |
| C143 | noBarrierWakeTime, sleepUntil, checkTimers, adjustTimers, isCleanNeed over the histories of C141 without tickers | an invariant W over all histories: keys and earliest-modified time are lower bounds of the due times of timers to run; the deadlock by running adjustTimers on the rescheduled entry |
| C144 | trees of directories with nil entries, FindFileRecursively, GetDependencyRecursively, FindFiles, FindFile, Files; maps as lists in any order | mutual induction over trees and their lists of sub directories; sorted permutations are unique |
| C145 | dfile (data nil or not), the disk as a contract; Save, Append, Prepend, Marshal, MarshalTo, Len, ReadFrom, Decode, WriteTo | refinement of a history to the contents; invariant that the path names no regular file |
| C146 | ChecksumIEEE bit by bit, hashed_name, rename_entry | one step of the checksum is injective and linear above; collision by the generator polynomial |
| C147 | walk, FindByRelativeFrom over the directories of C55 with their parents | induction over the parts of the path against resolve |
| C148 | CombineModel ready_lang, bundle_of, update over directories as lists of names and data | names told apart by the part before the first dot and by the extension; induction over languages and sheets |
| C149 | ready_sheet, rewrite_refs, ReplaceAll; Compress for the copies | ReplaceAll against replaced; two updates compared, lengths count occurrences |
| C150 | ready_lang, the page | page of each language in terms of the directory before; the second update from the first's result |
| C151 | update applied any number of times to the directory of sheets | the longest name grows; it outlives the steps that remove shorter ones |
| C152 | readySWFile | induction over languages, then unchanged by the sheets |
| C153 | readyLandingsFiles over localizeHTMLFile of C106 | induction over the pages; the name without extension of C54 |
| C154 | Compress, compress_loop | induction over the encodings |
| C155 | visit loop over a stateful visitor, Init on a used set, Reinit (CmdPathModel) | induction over the list visited; the record of set flags followed through parsing any list of rendered flags |
| C156 | Clean, Rel, ShortPath, RelPaths on elements (CmdPathModel) | walking specification `leads`; folds over elements, common prefix |
| C157 | TimerLifeModel.v: Init, Reinit and Deinit over the timing model | case analysis over the status, the queue invariant of C141 for reached states |
| C158 | TimerLifeModel.v: one turn of the loop, and the loop with users as a relation | the invariant of simple histories (C08) for the time returned; induction over the interleaving for what is added to the history |
| C159 | HttpReuseModel.v: all operations of requests and responses with Reinit | simulation between the reused and the new message over every later history; counting lines over rounds |
| C160 | WheelLifeModel.v: the stop channel, the ticker and the place of the goroutine as a transition system of ticks, turns of the loop, Start and Stop | WheelLifeTheorems.v: exact characterisation of the result of Stop; a Stop while callbacks run leaks the goroutine, and a restarted wheel is refuted by a general history |
| C161 | ClockMoreModel.v: the table of names by language | ClockMoreTheorems.v: agreement with the independent weekday of ClockSpec for every time from 1970; injectivity; exactly the sets of one day have names; exact set of times |
| C162 | ClockMoreModel.v: threads whose Add and Swap are two memory operations each, run by any schedule | sums (modulo the word size) of what is stored and what is left to add are invariant; permutations of what is stored and held for swaps; mixed times by an explicit schedule for all values |
| C163 | HttpModel.v: FixPragmaCacheControl over the list of lines | exact effect as a function of the first Pragma and Cache-Control values; idempotence under the guard that no Cache-Control line is empty; induction on the number of calls for the refutation |
| C164 | SleepModel: declare/Init/Start composed as in NewAsync, After, NewAsyncTick; Sleep as three phases of the thread, interleaved with any steps of TimingModel | the history shows a firing of the sleeper's own timer when it has returned; C08's well-behaved histories give the time; after a firing without a new start no other can come, so a thread that missed it stays |
| C165 | RaceModel: Start, Stop, Reset, Tick as small atomic steps of any number of threads, interleaved with the steps of the thread that holds the lock of the queue; the queue as a set (any order) | a table of what status, queue membership, lock holder and position of the owner can be together (TI), kept by every step; logs of what is seen and of the moments of setting, stopping and taking; the answers by an invariant per thread |
| C166 | RaceModel | counting settings, stops and runs; schedules as witnesses; permanence of the taken lock by induction over every continuation |
| C167 | RaceModel | the count as a sum over timers (stopped, waiting to be dropped, being taken back, stopped and not yet counted), kept by every step; exact between calls, one too low in every state in which one Stop is half done |
| C168 | UriModel.v Len, ulen | lengths of the written parts; exact formula for the difference and when it is 0 |
| C169 | UriModel.v UnmarshalFrom, Unmarshal | reading is independent of the text held before (induction over the loop); leftovers general in the old object |
| C170 | PoolRaceModel.v: pool/lifo.go with one step for each atomic operation, any number of threads | counting invariant over all places and all program points, kept by every step; schedules for what fails |
| C171 | EventRaceModel.v: event/target.go with one step for the mutex, each handler and the end of a call | invariant relating the state to the calls in the order they got the mutex; measure for the end of all calls |
| C172 | StatusRaceModel.v: achaemenid/status.go with one step for the mutex, the store, reading the slice, each offer, and two for a registration | invariant over program points (offers to a channel are the stores with some left out, at most the one under way owed); `safe` (every registration under way has seen the channel) is kept and pays every store; a registration that has not seen it drops it for ever |
| C173 | StatusRaceModel.v: net/tcp/stream-status.go with one step for the atomic write and one for notify | chain of writes; counting told plus about to be told against written; explicit schedules, over all states, for stale and missed statuses |
| C174 | AtomicRaceModel.v: every operation of Atomic, one step per operation on memory, any number of goroutines, with the history of the time | AtomicRaceTheorems.v: invariant over runs (what each goroutine has seen and done stands in the history); each answer against the history, parts only from times given, alone as said, seconds never back, one winner; refuted: time read goes backwards |
| C175 | directories of os/default handed to serve-www.go as interface values that hold pointers, nil or not; body read by the v1 handler (ServeFileModel) | on top of the lookups of C55: which paths give a file; a nil pointer in an interface is not nil, so the main page is never asked for and the body panics when read; over every history of calls on a directory read from disk |
| C176 | CompleteMethods over the declarations of a file: types, receivers, make, edits | invariant over the declarations walked; each other file refuted for all fields and names |
| C177 | HttpErrModel: the 18 errors with the texts of init, identifiers as any function of the text, SetStatusByError through IsEqual, registration in the order of init in both builds | status and equality decided by the text for all chains; exact equality classes; refuted for the three with one text; register by induction on the registrations |
| C178 | DispatchModel.v: the codecs of the repository as one type (JSON codec, compressor, decompressor, socket, body around another), Decode and Encode calling each other with one unit of fuel per call, Marshal and Unmarshal of each from CodecModel, SockIoModel and UriModel | exact set of pairs that come back, by induction on the bodies around a codec; the calls between a socket and anything else by induction on the fuel; what is moved read off the JSON case |
| C179 | floats as spec_float, strconv as a parameter with its promises | case analysis of the comparison; the promises applied to every float and text; a library that keeps them |
| C180 | float part of the JSON encoder and the two decoders over an abstract strconv with stated promises | text laws of the promises; refutations for negative floats, infinities, NaN and values with no end |
| C181 | MakeNewPage with its template text, strings.Title and ReplaceAll on ASCII | the template's pieces around each field; induction over the scope's name; left inverse of the name for lower-case scopes; refutations for dashes, letter case and a request used twice |
| C182 | NotFoundKey, End and the loop their comments describe, on top of DecodeKey, FindEndToken and the number decoders | one turn for each field, induction over the fields; refutations for every value with a brace before any other end, every string with a comma, and every text without quotes and ends (induction over the turns) |
| C183 | SetExpire and GetExpire with Go's calendar (absDate, Date) and Format and Parse of the two layouts | the calendar counted from multiples of 4, 100 and 400 as the specification; cycle decomposition by arithmetic; the 731 days of the two kinds of year by computation; refutation for all years from 10000 on |

Runtime behaviour that no model here exhibits: memory reordering, preemption
inside a function, garbage collection, `unsafe` aliasing of strings, real clocks.
Where the code is concurrent (timers, pool, atomic time, sockets) a step is the
body of one critical section or one atomic operation, and theorems quantify over
all interleavings of steps.

## 4. Findings

Every row of `MANIFEST.json` whose status is `partial` because the code violates
the English property has a `_refuted` theorem with the violation, and a theorem
that says exactly when the property holds. The faults with the widest effect:

* Numbers: 64-bit decimal parsing accepts texts above 2^64 (C04). Codecs swap byte
  order on big-endian hosts (C02).
* Timers: starting a timer can crash or self-deadlock when stopped timers are
  queued (C09). Late periodic timers never catch up (C10) and keep a stale heap
  key (C08). Limited tickers tick once too often (C11). The wheel does not wrap
  around (C12).
* Codecs: strings are not escaped in JSON and negative numbers lose their sign
  (C16). A truncated JSON list loops for ever (C62). Syllab booleans, fixed arrays
  and complex numbers do not come back (C15).
* HTTP and URI: replacing or deleting a present header does nothing (C21). The
  Cookie writer always panics (C23). Empty request targets and cookie lines can
  panic the reader (C65, C69). A text cached by parsing hides later changes (C64).
* Network: the TCP option loop and the frame loop do not end on unknown input
  (C33, C42). A server stream is never established (C34). IP address parsers
  never report an error (C37, C38). The IPv6 printer panics on every address but `::`.
* Storage: files and directories are never created because of a typed nil (C55).
  Flat buffers do not return what was written (C27). The pool limit is exceeded
  without bound once clean-up runs (C26).
* Other: command-line arguments written are refused when read (C48). User
  identifiers carry neither time nor type (C81). Read and write deadlines are
  swapped (C57). Listeners calling their target block for ever (C52).

## 5. How theorems are tested

`tools/mutate.py` edits one definition of the model in a scratch copy, rebuilds,
and reports which property theorems are no longer proved: those whose proof script
breaks, or that rest on a lemma whose script breaks. The record is
`seeded/LOG.jsonl`. Edits that repair a fault of the code break the proof of the
`_refuted` theorem about it.

What this shows, and what it does not. An edit under which every theorem still
proves is a reliable sign of a missing or weak theorem, and each such edit in the
log has a theorem added or a reason. A broken script is weaker evidence: it does
not by itself show that the statement is false of the edited program. The search
stops at the first theorems that break, so `theorems_failed` can leave out theorems
that are also false, and can name theorems that are still true but whose proof used
a broken lemma (`C183_far_refuted` under an edit of the leap year rule is one).
Two edits of `PageGenModel` were first logged as caught although every statement
was true of them; computing showed it, and `C181_made` was added for them.
Thirteen older lines that named only a `_refuted` theorem and looked doubtful were
then read through by hand. Five were right. Three were edits without effect, three
had been caught by a script only (`C12_init_exact` and `C146_crc32` were added), two
named the wrong theorem; all eight are corrected in the log. About 360 more lines
name only a `_refuted` theorem, and about 110 only an example, and have not been
read through in this way, so more such lines must be expected among them.
`CookieDateModel.pad4` in the log is an edit without any effect that broke a script
all the same. Where the falsity of a statement has been checked by computing a
counterexample on the edited model, the log line says so in `counterexample`; for
the other lines it has not been checked one by one.

## 6. What `Print Assumptions` lists

Every theorem in `*Theorems*.v` is followed by `Print Assumptions`, and for every
one the answer is `Closed under the global context`: no axiom of the standard
library, of another library or of ours is used. No library outside Coq's standard
library is imported. `coqchk -o` names seven axioms for the whole set of loaded
files, all of `Coq.ssr.ssrunder` (the fields of the sealed module `Under_rel`). The
standard library loads that file with its own setoid files; no theorem here
depends on it, as the answers of `Print Assumptions` show.

## 7. What is modelled and what is not

Modelled (package: files; the definitions carry the lines):

* binary: le_le.go, le_be.go, be_le.go, be_be.go, tools.
* math/integer: decimal parsing and formatting of all widths. math/boolean text.
* time: duration, unix, utc, monotonic, earth units; timer: timer, timing (heap,
  status machine, add/clean/run), limit ticker, timing wheel.
* syllab: encode, decode-safe, decode-unsafe. json: encode, decode, decode-minified,
  the unsafe decoders, fixed arrays and identifier lists.
* timer: timer-sync, tick (SyncModel; client thread against the timing thread).
* net/uri: escape, uri, authority, query. net/http: header, cookies, set-cookies,
  encodings, content type, accept, lengths and codes.
  net/http request/response/body accessors, host check, mux and www services and the
  v1 handler (C88-C91). net/metric: both counter sets.
* net/tcp: segment, flags, stream state, options and option views,
  keep-alive, user timeout, handshake counters, timing. net/ipv4,
  net/ipv6, net/udp: packets and textual addresses. net/gp, net/chapar: frames,
  paths, connections, port loop. net/frames.go with srpc, sec, l4 frames.
* identifier: 8byte, uuid-time-16byte, 32byte, rfc-4122; user ids and types.
* operation/command: flags, ToCLA/FromCLA, dispatch. validators: Luhn.
* pool: lifo. buffer: flat. service, error and event registries. file editing,
  storage paths and directories, mediatype parsing, socket deadlines.

* log: helpers, levels, panic handler. achaemenid: application life cycle, status,
  signals. adt/queue; net/socket-codec and connection-status.

* math/per, math/boolean, signed integers; validators/text; convert (unsafe slices).
* math/float: Equal, ToString, FromString; floats are the standard library's spec_float (one NaN), strconv is a parameter.
* modules/gui/services/new-page: MakeNewPage with the text of its template (ASCII names).
* json: EncodeFloat32, EncodeFloat64 and both DecodeFloat64AsNumber over the same parameter.
* json: NotFoundKey and End, in the client loop their comments describe (the loop is not in the repository).
* net/http: SetExpire and GetExpire, with the part of Go's package time they use (calendar, two layouts).

* go/parser: package.go over the syntax tree (Go's own parser is the input).

* net/chapar mux.go, port.go, port-bridge.go: a graph of multiplexers and the life of one frame in it; the
  table of connections is only asked whether it knows a path, and broadcasting is left to the loop of C80's model.
* net/ipv4/tcp.go, net/ipv6/tcp.go: the lookup and the call of the stream; the locks are not modelled.
* net/ipv6/extension-routing.go: all accessors.
* net/http/v1/handler.go (sending half), net/srpc/handler.go, net/std/net.go and io.go: in ClientModel. The stream, its codec and protocol.NetworkStatus are parameters; the channel is the list of values it will ever carry; the connection pool and the service registry are abstracted to their answers.
* gui/pages.go, operation/protocol/action.go, language/string.go (DecodeCompressCharecter; the other functions there return nothing), os/default/sort.go and file-meta-data.go, timer/init.go, crypto/aes-256.go, gcm.go, ccm.go, minify/minify.go, net/uri/urn.go: in MiscModel. sort.Sort is taken by its contract; the minifier is a parameter.
* timer/timing.go (verifyTimerHeap, moveTimers, moveTimersTo, MoveToMe, Reinit): QueueModel, over
  TimingModel.  The two mutexes are only seen through re-locking by the same call.  Which core runs is
  a boolean: the queue's own or another.
* timer/timing.go (noBarrierWakeTime, sleepUntil, isCleanNeed, adjustTimers, checkTimers): in TimingModel; the
  wake-up theorems of C143 are about histories without tickers.
* os/default/file-directory.go (FindFileRecursively, GetDependencyRecursively, FindFiles, FindFile, Files, init),
  os/default/file.go (all but Minify, Compress and Replace), file/file.go (FindByRelativeFrom, AddHashToFileName):
  in TreeModel. The disk is a contract (no regular file under an empty path or one that ends in a slash); hash/crc32
  is modelled from its definition; slices given to Unmarshal and Prepend are not shared.
* www/combine.go (update, readyAppJSFiles, addLocalized, readySWFile, readyDesignLanguagesFiles, readyLandingsFiles),
  file/file.go Compress, os/default/file.go Replace: in CombineModel. Directories are lists of names and data over which
  File(name) makes what is missing, as its comment says; the minifiers, the compressors and the decoder of localisation
  files are parameters; the loop over Directories (which os/default leaves empty) and www/js.go addJSToJS* (never called)
  are not modelled.
* operation/command/flag.go VisitAll, Visit, Init on a used set, Reinit; path.go ShortPath, RelPaths,
  IsTestFile: `CmdPathModel.v`, with `filepath.Rel`/`Clean` by their documentation (Unix, absolute base).
* timer/sleep.go, timer/tick.go and After, NewSync, NewAsync: SleepModel.  The package memar/scheduler they import is
  not in the repository; a thread in Yield is taken to go on when its TimerHandler is called, and a call that
  finds it not waiting to be lost.
* timers from several threads (RaceModel): steps are atomic and memory sequentially consistent; a load
  followed by a compare-and-swap is one step where nothing is read in between; the order of the queue,
  timerModifiedEarliest and timer0When are left out (the holder of the lock may turn to any timer at any
  moment, so every order of the code is included); one core; timers are initialised.  The theorems of
  C165 ask that each timer be used by one thread, as the comment on Async asks.
* pool/lifo.go beside threads (PoolRaceModel): the calls of CloseFunc that Close makes under the
  mutex are one step; New is set and never returns nil; itemsCount does not reach 2^63.
* StatusRaceModel.v: goroutines that share the application status or a TCP stream's status take turns in the steps
  its comments name. Reading and writing the unsynchronised slice of listeners are one step each: Go promises less (a torn
  slice header, two appends into the same free place of the array), so the real program can only do worse than
  C172_lost_refuted says. Whether a listener takes an offer is not in C172 (AppModel.v has it); in C173 a listener is at the
  channel or not.
* EventRaceModel.v: goroutines that share an event target take turns in the steps its comments name; handlers are recorded,
  and one that calls the target again is in C171_nested_refuted.
* AtomicRaceModel.v: calls on one atomic unix time by any number of goroutines; each operation on memory is one step and
  the memory is sequentially consistent, as Go's atomic operations are. Now (a Store of the clock's time) and the reads of
  only the seconds or only the nanoseconds are not separate operations there.

* www/assets.go Init and net/http/services/serve-www.go over the directories of os/default (ServeFileModel): os/default is
  written against an older version of the interfaces than net/http; the model follows only which pointers are handed on and read.
* net/http/errors (HttpErrModel, C177): the type er.Error of these errors is not in the repository at this commit; an error is modelled as its media type, an identifier that is any function of the text it is initialised with, and its details, compared with error/error.go IsEqual. Whether Init registers the error is not in the repository either: the register theorems say what registering them in the order of init gives.
* Decode and Encode between codecs (DispatchModel.v): receiver and argument are two different objects; a body holds no cycle of bodies; the imports memar/protocol and libgo/protocol are taken to be one interface. net/uri, net/chapar/path.go and adt/queue have methods of another shape (Marshal with one result, other arguments), so they are not arguments of Decode; URI.Encode is modelled as a caller. net/http/v1/handler.go names a field H that the request no longer has; only its calls of Decode and Encode, which are the promoted methods of the body, are modelled here.
* syllab/generator.go CompleteMethods on a whole file (GenFileModel), from the declarations go/parser finds to the list of edits; the
  package ../assets it imports is not in the repository, the edits are applied with ReplaceLocation of file/file.go.
* syllab/generator.go: what the generated methods do, per field kind (the text it
  emits is not modelled).

* compress/gzip, compress/flate codecs over an abstract library; json/codec.go;
  compress-types and mediatypes registries.

* www: localising, mixing, import extraction and bundling (js.go, html.go, css.go,
  the combine loop); minify/html.go. File lookup and hashing are in TreeModel; serving is not modelled.

Not modelled: cryptography and the compression library itself (Go's library), GUI
packages, writing log text out, the operating-system layer below `os/default`, reflection
and the interfaces in `adt` that have no code.
