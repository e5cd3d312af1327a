# Model and proof design for netrack/openflow

The Go sources in `/repo` are read as text; nothing in `/repo` is built or run.
The model is a set of total, computable Gallina functions, one per Go function,
each with a comment naming the file and lines it models and any simplification.

## Layout of the development (`rocq/theories`)

| file group | contents |
|---|---|
| `Bytes.v`, `BytesFacts.v` | bytes, big-endian integers, list slicing |
| `Encoding.v`, `EncodingFacts.v` | `internal/encoding`: `ReadFrom`, `WriteTo`, `ScanFrom`, limited readers |
| `*Model.v` | models of the Go code, no proofs |
| `*Facts.v` | lemmas |
| `*Spec.v` | small independent specifications (wire offset tables, life-cycle grammar, abstract queues …) |
| `P_*.v` | property theorems only: each closed by `exact lemma`, followed by `Print Assumptions` and an `Example` that meets its hypotheses |

Conventions

* Go unsigned integers are `N` with explicit range predicates (`wf_…`, the Go
  type invariant); every place where Go arithmetic wraps has an explicit `mod`.
  Signed `int`/`int64` are `Z`.
* A Go decoder `x.ReadFrom(r)` is a function of the *old receiver* and of the
  bytes available, returning the new receiver, the reported count, an optional
  error and the remaining bytes. Round-trip theorems quantify over the old
  receiver, so a decoder that forgets to overwrite a field is not provable.
* Errors are values (`EEOF`, `EUnexpectedEOF`, unknown type, corrupted header,
  too long, panic, out-of-fuel). Panics are an error value; out-of-fuel is
  shown unreachable.
* Encoders and decoders are written separately, following the two Go functions.
* Concurrency: state machines with one transition per atomic action (lock
  section, channel operation, atomic counter operation, callback). "Every
  interleaving" = induction over every list of steps / reachable states.

A property whose expected form is violated by the code says so in its
statement; the violation is a theorem `…_refuted` (a witness) or, where
possible, a universally quantified theorem that describes the wrong behaviour
exactly. The true part is proved next to it.

## Per property

| id | model | proof |
|---|---|---|
| C01 | `Header` record, `encoding.WriteTo/ReadFrom` on its four fields | round trip by big-endian lemmas, both directions; layout by computation |
| C02, C03 | `Request.WriteTo` over a body given as nil or a payload `(bytes, error)`; result = new header, count, error, bytes handed to the writer | case analysis on body and length, all lengths |
| C04–C07 | `Request.ReadFrom` over a reader = byte list + arbitrary schedule of read sizes (0 allowed) + final error; loop by fuel | induction on the schedule; out-of-fuel excluded by "the schedule is productive" |
| C08, C09 | same model; second reader model that may return data together with an error | characterisation of the error for every cut point |
| C10 | `ProtoMinor` arithmetic in uint8 | finite + arithmetic |
| C11, C12 | body kinds: repeatable payload (`copyReader`), consumable buffer; `Read`/`init` state machine | induction on number of sends / reads |
| C13–C15 | `bufio.Writer` with capacity 4096 over a transport that fails after an arbitrary number of bytes; threads of operations interleaved at lock sections | invariant: wire ++ buffer = concatenation of accepted messages; prefix under failure |
| C16 | `Send` over the conn model | induction on the request list; witness for the violation |
| C17 | two `Receive` machines sharing one stream at the granularity of individual reads | witness schedule, computed |
| C18 | conn model with a clock and deadline | universal theorem on the time gap |
| C19, C20 | `response.Write` | all payload lengths, wrap theorem |
| C21–C26 | mux as association list, lookup split into its two lock sections, arbitrary iteration order | invariants over all interleavings; witnesses for the races |
| C27–C29 | matchers as state-passing functions on requests (they may consume the body) | case analysis; uses the FlowRemoved/PacketIn decoders |
| C30–C35 | server machine: accept loop steps, connection life cycle, counter mod 2^32, request queue, runner, callback trace | invariants; trace grammar as independent spec; witnesses |
| C36, C37 | worker pool machine | invariant relating history to queue+running+done; refinement to a FIFO; deadlock state for every `num` |
| C38–C40 | all fixed-size messages in a registry indexed by message kind | one generic theorem per property over the registry; layout against offset tables |
| C41–C43 | `XM`, `Match` | induction on entries; 8-residue padding |
| C44–C46 | actions, instructions, `ScanFrom` | generic scan theorem: element round trip ⇒ list round trip; totality for every input |
| C47–C50 | flow, packet, bucket messages | composition of the above |
| C51, C52 | decoders with value receivers or discarded `reflect.Append` | universal theorems about the old list; empty-input theorems |
| C53 | table features and properties | composition; exceptions as witnesses |
| C54 | hello elements | arithmetic on the parity of the list; the standard's form run through the scan |
| C55–C57 | trailing data, length fields, counts | arithmetic + registry |
| C58–C60 | `ofputil` | bit lemmas; composition with request/response models |
| C61 | ofptest server machine: accept loop, calls of Close, closing goroutines, timeouts | phase invariant over every schedule; constructed schedules for progress; witness |
| C62 | conn machine of C13 | the lock owner is always at a point where it can move |
| C63, C64 | mux machine of C21 | readers are exactly the goroutines inside a scan; a dead reader blocks every write section; with the waiting-writer rule of the real lock (machine of C125) every new search hangs behind the first blocked writer |
| C65 | server machine of C30 | permutation invariant: calls made + handlers not begun + unread = messages sent; at rest nothing is left |
| C66 | `Match.Field` | induction on the entries against an independent predicate |
| C67 | instruction scan over the action scan | generic lemma: scan after any encoded list; nested limited reader; InstrListSpec: what any bytes say as instructions, proved total, and the decoder's report the only one it allows |
| C68 | bands, queue properties, group/meter/queue messages | layout tables concatenated by size |
| C69, C70 | `MultipartRequest` with its four kinds of body as explicit state | computation; induction on the reads |
| C71 | registry of messages that survive, composed with `Request` write/receive | one generic theorem |
| C72, C73 | table property readers on headers written by others and on arbitrary bytes | round trip of bare headers; scan after any encoded list |
| C74, C75 | `NewFlowMod`, match field helpers, number accessors | computation against an independent account of what a deletion removes; round trip of matches |
| C76 | `ofptest` recorder next to the response writer | induction on the writes; byte equality with `response.Write` |
| C77 | `DeadlineModel.v`: Receive on a line of timed arrivals | reduction to framing lemmas; induction on the calls; witnesses |
| C78 | instruction helpers with `NewFlowMod` and requests | round trip composed with a small account of how a switch executes instructions |
| C79, C80 | `PoolServerModel.v`: accept loop, queue and workers as a state machine | invariants over all schedules; starvation and deadlock for every pool size by construction |
| C81 | decoders of `FixedModel.v` on arbitrary bytes, tables of `FixedSpec.v`, padding in `RelaySpec.v` | every decoder reads each field from its place (combinators for arbitrary input), then composition with the layout theorem |
| C82, C83 | `TextModel.v`: name tables, decimal numbers, flag lists | generic injectivity of table-or-number texts, unique decodability of joined flag names; names compared with lists in protocol order |
| C84 | PortsModel (dec_Ports, ports_loop over dec_Port of FixedModel) | P_Ports: induction over the ports of the input; arbitrary input through RelayFacts (port_of) and CutFacts (error at each cut) |
| C85 | FixedModel decoders; CutSpec (member widths) | P_Cut: combinators in CutFacts giving the error of each truncation of a field sequence |
| C86 | SessionModel (enact: handler calls and flushes of a ServerModel trace applied to a ConnModel connection; TypeMux by C26; echo and hello handlers) | P_Session: composition of C35 (trace), C19 (reply frames), C02 (stream reading); induction over the trace and the message list |
| C87 | VaryingModel (one interface to the models of matches, actions, instructions, buckets, flow and packet messages); VaryingSpec (ranges, sizes, layout tables) | P_Varying: bytes filling a layout table (FillFacts), combinators for decoders on filled tables, induction over lists |
| C88 | MatchModel; MatchRelaySpec (regular entries) | P_MatchRelay: what enc_XM writes for an entry read from arbitrary bytes, length argument for lists |
| C89 | all decoders of the model | `SafetySpec.v` (reportable, orderly), `SafetyFacts.v` (closure of `safe` under the decoder combinators, by induction for loops), `P_Safety.v` |
| C90 | `ReadAheadModel.v` (lists that leave unread what the buffer had not taken) | `ReadAheadFacts.v` (induction over the elements), `P_ReadAhead.v`; agrees with `ActionModel.v` in value, count and error |
| C91 | `JarModel.v` (NewCookieMatcher over the six cookie jars) | `JarSpec.v`, `JarFacts.v` (place of the cookie in every accepted body), `P_Jar.v` |
| C92 | ServeLoopModel: ServerModel's state with the connection each Serve call is busy with (SequentialRunner) | simulation by ServerModel; counting of busy loops; invariant that only the last connection speaks, so the trace is the concatenation of the stories |
| C93 | ServeLoopModel: an Accept that fails ends its Serve call | invariants of ended calls; lifting of ServerModel's terminating schedules |
| C94 | SliceModel: arrays, slices as windows, append with a growth policy as parameter, the list readers on them | refinement of the list-level decoders; a fold of appends characterised cell by cell |
| C95 | PipelineModel: peer, receiver goroutine, handlers and lock of the connection as one transition system over byte counts | an invariant over all schedules, a measure of progress, the states at rest characterised |
| C96 | EndModel: the loop of a connection, its handlers, the lock and the close as a transition system over reply bytes | an invariant over all schedules; for the loss, a schedule built for every choice of replies |
| C97 | WaitModel: peer, receiver goroutine with deadline, loop and handlers as a timed transition system | the phases of a connection as an invariant; a decreasing measure |
| C98 | RequestModel: read_from into any former value | the header fields read one by one; independence of the former value |
| C99 | SharedModel: the accesses of response.Write to its header as steps of several goroutines | an invariant over all orders of accesses; induction over replies written in a row |
| C100 | FixedModel, ActionModel, TableModel: decoders on broken-off input | members read one by one, blended layout tables; the port description via its state after n bytes; scan loops stopping at the broken-off element |
| C101 | WriterModel: every WriteTo as a sequence of Write calls on a destination that is any function of the earlier calls | each writer refines a list of parts (offered in order until one fails), composed by a lemma on consecutive writers; the parts concatenate to the encoding |
| C102 | the decoders as they are; BulkSpec: how much a value holds | amortisation: what the value holds plus 64 per unread byte never grows, closed under all decoder combinators; elements of scans take at least a byte each; allocated lists as slack of the last element |
| C103 | the decoders as they are; TruncSpec: what a cut looks like, from widths and sizes alone; SeenSpec, AcceptSpec: what is read of cut actions and instructions, and of every cut that is accepted | compositional: a finding for every prefix, closed under sequencing, limits, scans and entry loops |
| C104 | MuxModel and transaction_matcher; PairSpec: messages given to a matcher's handlers, transactions awaited | invariant: a message that lost the race names an entry already consumed; with conservation of registrations |
| C105 | all encoders; DistinctSpec: told apart, self-delimiting | from the round trips where reading keeps everything, else from the prefix structure of headers and lists; induction over lists |
| C106 | RequestModel, ServerModel, SessionModel, ConnModel, MuxModel composed; ExchangeSpec: asks, answers with, quiet, finished | invariants of the multiplexer (dispatches come from programs and are accounted for; handlers registered first are seen or taken), then C86 and C104 |
| C107 | all decoders and encoders, RequestModel; ProxySpec: what is sent on | round trips (C38, C87, C55, C51, C53) into framing, difference of frames from C105 |
| C108 | HandsModel: handler calls of one connection as tasks that write in any interleaving, over ServerModel and ConnModel; HandsSpec: replies of a call | invariant over runs (tasks, log, wire), permutation of the log by call, client side shared with C106 |
| C109 | HandsModel, FixedModel, FlowModel, GroupModel, MeterModel, TableModel; PartsSpec: answers in parts, a client that gathers them | C108 into framing, filter by transaction, round trip per kind, induction on parts and entries |
| C110 | ServerModel; IsolationSpec: a connection's own moves, schedules without them | simulation that drops one connection's moves and replaces its messages, projection of a schedule that comes to rest (C32); invariant for the limit |
| C111 | GroupModel, MeterModel, QueueModel, HelloModel; ShortSpec: finding per kind and cut from widths and sizes; TakenSpec: what is left in the receiver | compositional lemmas of C103, extended to lists read until the end, lost lists and ignored header errors; induction on lists |
| C112 | ActionModel, InstructionModel, FlowModel; OverlongSpec: lists divided by declared lengths, experimenter actions with data | reading is determined by the content of complete actions (`denotes`), which leaves length fields open; embedding lemmas for packet-out and flow modification |
| C113 | PadModel: goroutines, shared padding variables, stores of single bytes; tied to FixedModel's decoders and encoders | a goroutine's moves do not depend on the variables (non-interference); induction on schedules and on field lists |
| C114 | CrashModel: runs of ServerModel that stop at the first call of a panicking handler; handlers that read bodies with the decoders of FlowModel, GroupModel … | a run is a prefix of the run without panics; explicit moves of a newcomer from any state; invariant on all requests in the server; C89 for the decoders |
| C115 | MuxModel with its two lock sections; the sequential multiplexer of AtomicSpec is a map from matchers to handlers | the list of results is itself the linearization: invariant that a scan sees the current map because the read lock is held, and position of each goroutine in its program; counting uses against registrations for the refutation under every permutation |
| C116 | TableModel on every beginning of an encoding; FeatCutSpec gives the finding from widths and sizes only | compositional lemmas (what a step reports for the beginnings of its encoding) for each combinator and property; the value by following the scan over the properties that came and one step into the property that is cut |
| C117 | GroupModel, MeterModel, QueueModel, ActionModel, InstructionModel, TableModel, FlowModel, HelloModel; LowSpec gives the fixed parts, the place of the length and the span of a declared length | each decoder is a front that reads the length and a part limited by it; the value of the limit by arithmetic modulo 65536; lemmas on steps that leave nothing when they succeed; scanning of the properties in front by scan_loop_arrives |
| C118 | RegModel: interface values of matchers and handlers over the multiplexer of MuxModel | acceptance by cases and agreement with `register`; crash by type routing; server by instantiating C114; broken matchers by an invariant over all schedules and induction over the visiting order |
| C119 | ConnModel (bufio.Writer over a transport), HeldModel: Send without Flush, Close | arithmetic of the buffer by cases over the write loop, induction over the requests; the peer by a cut-stream lemma over C04/C08 facts |
| C120 | SendRaceModel: the steps of Request.WriteTo of any number of goroutines on a shared header | invariant over all schedules counting the additions made; explicit schedules for every header and body; the peer by the frame facts of C04 |
| C121 | FlagModel: the const blocks with their iota expressions, the test and the union of flags | table of the OpenFlow 1.3 bits in FlagSpec; bit-level lemmas for all words; the features reply by the decoder on arbitrary bytes |
| C122 | ElemModel: the writers of all messages with lists of interface values, for arbitrary elements | induction over the lists for the first error and the collected bytes; equal to the encoders of the other models on the package's elements |
| C123 | PartyModel: handler calls, the server and other goroutines operating on one buffered connection, with the events of the server model | invariant over the runs (log of operations, stream, calls); invariant of the server that a return is followed by a flush before StateIdle |
| C124 | NestModel: goroutines with operations on many multiplexers, handlers with bodies of operations; each multiplexer is the state machine of MuxModel | simulation of every multiplexer by a run of its own with the operations performed on it as program; depth-first log by induction over runs; invariant for the circle; decreasing potential over layers of multiplexers |
| C125 | LockModel: goroutines as stacks of calls on one multiplexer, matchers with operations of their own, RWMutex with announced writer | invariant on holds and announcement; persistence of the hang over all continuations; decreasing count of entries left for the waiting writer; simulation of MuxModel (P_LockTie); invariant that finished operations form a sequential history (P_LockAtomic) |
| C126 | MuxModel, CookieModel: MultiMatcher, CookieMatcher | fold over parts; schedule built from any state (pick the other entry first); invariant for one request that nobody touches |
| C127 | FlowModel: dec_FlowMod, dec_FlowRemoved, dec_FlowStatsRequest, dec_AggregateStatsRequest, dec_FlowStats, dec_PacketIn, dec_PacketOut | fixed head by cases on the length; match by parse_total; instructions by C67_classification, actions by the classification of C45; spec FlowBytesSpec |
| C128 | MeterModel: dec_MeterMod, dec_MeterConfig, dec_MeterBands, dec_MeterBand | head by cases on the length; bands by induction on the scanner's fuel in both directions (the report exists and is unique); spec MeterBytesSpec |
| C129 | HelloModel: dec_Hello, dec_HelloElems, dec_HelloElem | an element by its header and length; the list by induction on the scanner's fuel in both directions; spec HelloBytesSpec |
| C130 | QueueModel: dec_QueueGetConfigReply, dec_PacketQueue, dec_QueueProps, dec_QueueProp | head by cases on the length; properties by induction on the scanner's fuel in both directions; the list of queues by induction on the fuel and on the report; specs QueueBytesSpec, QueueReplySpec |
| C131 | GroupModel: dec_GroupMod, dec_GroupDescStats, dec_Bucket | heads by cases on the length; actions by the classification of C67; the list of buckets by induction on the fuel and on the report; spec GroupBytesSpec |

## Trusted base

* The Coq 8.16.1 kernel (and `vm_compute` for closed computations).
* `Print Assumptions` is printed beneath every property theorem; the intended
  answer everywhere is "Closed under the global context". Loading the standard
  library's tactics brings the axioms of `Coq.ssr.ssrunder` into the environment;
  no theorem uses them.
* The faithfulness of the hand-written model. Modelled: everything named in the
  table. Standard library behaviour assumed from its documentation and source:
  `encoding/binary` (big-endian, `io.ReadFull` error rules), `bytes.Buffer`,
  `io.LimitReader`, `ioutil.ReadAll`, `io.Copy`, `bufio.Writer` (capacity 4096),
  `bufio.Reader` (as a byte stream; see below), `sync.Mutex/RWMutex/Once`,
  channels, `sync/atomic`, Go maps with arbitrary iteration order.
* Not modelled: memory aliasing beyond the slices of SliceModel.v (C94), data races in the Go memory
  model sense (each lock section / atomic / channel operation is one step),
  TCP/OS behaviour beyond "a byte stream that may fail at any point", TLS,
  garbage collection, performance, list elements of user-defined types
  beyond those of C122 (methods that write some bytes or fail), `String()` methods other than those of
  the C82/C83 rows, the unexported stop channel of Server (package tests only).
* `ScanFrom` reads through a fresh `bufio.Reader`, which may read ahead of what
  the elements consumed. When a scan ends early (error, or EOF inside an
  element), the model says the rest of the region handed to the scan was
  consumed; this is exact for regions of at most 4096 bytes and a simplification
  beyond (the C90 row models the read-ahead for regions of any size and proves
  where the two differ). On a complete scan the region is consumed in either case.
