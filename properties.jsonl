{"id": "C01", "title": "Message header survives the wire both ways", "statement": "Writing any Header and reading it back yields the same Header, consumes and reports exactly 8 bytes and leaves the bytes after it unread, whatever the receiving Header held before; conversely every 8-byte string decodes to a Header that writes back to the same 8 bytes. On the wire the fields are version (1 byte), type (1), length (2, big-endian), transaction (4, big-endian).", "quantifier": "every header value, every previous receiver value, every 8-byte string, every continuation of the stream", "why_tests_cant": "2^64 headers; tests decode a handful of literals into pre-filled structs.", "anchors": ["header.go: Header.WriteTo, Header.ReadFrom", "internal/encoding/encoding.go: WriteTo, ReadFrom"]}
{"id": "C02", "title": "Request.WriteTo emits one self-describing frame", "statement": "When Request.WriteTo succeeds it performs one write whose bytes are an 8-byte header followed by the body verbatim; the length field equals the total number of bytes written and the reported count, version, type and transaction are those of the request, and a nil Body gives a bare 8-byte header.", "quantifier": "every header, every body content up to the protocol limit, nil or non-nil body", "why_tests_cant": "body lengths and contents are unbounded for a test; only sampled bodies are compared.", "anchors": ["request.go: Request.WriteTo", "header.go: Header.WriteTo"]}
{"id": "C03", "title": "Oversized or failing bodies put nothing on the wire", "statement": "Request.WriteTo returns ErrBodyTooLong with count 0 exactly when the body is longer than 65527 bytes, and returns the body's own error when the body fails; in both cases not a single byte reaches the writer. Bodies of up to 65527 bytes are never rejected.", "quantifier": "every body length, every failing body, every failure point inside the body", "why_tests_cant": "the boundary and all failure points cannot be enumerated by examples.", "anchors": ["request.go: Request.WriteTo, ErrBodyTooLong"]}
{"id": "C04", "title": "Receiving inverts sending under every fragmentation", "statement": "Reading a frame written by Request.WriteTo yields a request with the same version, type, length, transaction and body, with ContentLength equal to the body length, no matter how the transport fragments the bytes into Read calls (including empty reads) and whatever follows in the stream; the rest of the stream is untouched.", "quantifier": "every request, every sequence of read sizes the transport may choose, every continuation", "why_tests_cant": "exponentially many fragmentations; tests hand over whole buffers.", "anchors": ["request.go: Request.ReadFrom, Request.WriteTo", "net.go: conn.Receive"]}
{"id": "C05", "title": "A stream of messages is received as the same sequence", "statement": "If any number of requests are written back to back on one connection and the peer then closes, repeated Receive returns exactly those messages, in order, followed by io.EOF.", "quantifier": "every finite sequence of requests, every fragmentation of the byte stream", "why_tests_cant": "unbounded histories; framing drift only appears on particular length combinations.", "anchors": ["net.go: conn.Receive", "request.go: Request.ReadFrom"]}
{"id": "C06", "title": "Receive stays inside the declared message and reports what it consumed", "statement": "Whatever bytes the peer sends, one Request.ReadFrom consumes at most max(8, declared length) bytes, the reported count equals the number of bytes consumed, and a success means exactly the declared number of bytes was consumed and the Body holds all of them after the header.", "quantifier": "every byte stream (well-formed or hostile), every fragmentation, success and error paths", "why_tests_cant": "hostile inputs are unbounded.", "anchors": ["request.go: Request.ReadFrom"]}
{"id": "C07", "title": "Length below 8 is rejected after exactly the header", "statement": "A header whose length field is below 8 makes ReadFrom fail with ErrCorruptedHeader after consuming exactly 8 bytes; a length field of 8 or more is never reported as corrupted.", "quantifier": "every header, every continuation, every fragmentation", "why_tests_cant": "exhaustive over all headers and continuations.", "anchors": ["request.go: Request.ReadFrom, ErrCorruptedHeader"]}
{"id": "C08", "title": "A message cut short never becomes a request, but looks like a clean close", "statement": "Every strict prefix of a frame makes Receive fail, never return a request. Users further rely on io.EOF meaning 'closed between messages'; that part does not hold: a cut anywhere in the body, or after 1, 2 or 4 header bytes, yields plain io.EOF exactly as a clean close does (only cuts after 3, 5, 6 or 7 header bytes yield io.ErrUnexpectedEOF).", "quantifier": "every frame, every cut point, every fragmentation", "why_tests_cant": "every cut point of every message; tests never truncate.", "anchors": ["request.go: Request.ReadFrom", "header.go: Header.ReadFrom", "internal/encoding/encoding.go: ReadFrom"]}
{"id": "C09", "title": "Readers that return the last bytes together with EOF lose the message", "statement": "The io.Reader contract lets a reader return n>0 together with io.EOF. Users rely on Request.ReadFrom accepting that; it does not: for every frame with a non-empty body, if the read delivering the final body bytes also carries an error, ReadFrom fails although the complete frame was delivered.", "quantifier": "every frame with a non-empty body", "why_tests_cant": "needs a reader behaviour no existing test uses.", "anchors": ["request.go: Request.ReadFrom"]}
{"id": "C10", "title": "Protocol version decoding", "statement": "For wire versions 1..255 the received request reports ProtoMajor 1 and ProtoMinor version-1, ProtoAtLeast is the lexicographic comparison, and a request made by NewRequest (version 4) is received as 1.3. The expectation that an older version never satisfies a newer ProtoAtLeast fails for the reserved version 0, which decodes to 1.255 and satisfies ProtoAtLeast(1, m) for every m up to 255.", "quantifier": "all 256 versions, all (major, minor) arguments", "why_tests_cant": "full argument space.", "anchors": ["request.go: Request.ReadFrom, Request.ProtoAtLeast, NewRequest"]}
{"id": "C11", "title": "Re-sending a request", "statement": "A request built by NewRequest with a repeatable payload writes identical bytes each time it is sent; one with more than 65527 bytes is refused each time and writes nothing. A received request does not have this property: for every received request with a non-empty body the first forward emits the original frame and every later one emits a header-only frame of length 8.", "quantifier": "every payload, every number of sends, every received request", "why_tests_cant": "depends on hidden consumption state over a history of sends.", "anchors": ["request.go: copyReader, NewRequest, Request.WriteTo, Request.ReadFrom"]}
{"id": "C12", "title": "Reading the body of a NewRequest", "statement": "Reading Request.Body of a NewRequest to the end yields exactly the payload bytes under every sequence of read sizes. Users also rely on a failing payload surfacing its error on the read; instead the first read reports what was buffered or a clean io.EOF, so for every payload that fails before producing bytes, reading to EOF succeeds with an empty body.", "quantifier": "every payload, every sequence of read sizes, every failing payload", "why_tests_cant": "order of error check and one-time initialisation only shows on failing payloads.", "anchors": ["request.go: copyReader.Read, copyReader.init"]}
{"id": "C13", "title": "Concurrent senders never interleave bytes of different messages", "statement": "With any number of goroutines concurrently sending requests, replying through response writers and flushing on one connection, the bytes put on the wire are always a prefix of the concatenation of whole messages in the order their writes took the connection, and each goroutine's messages appear in its own program order.", "quantifier": "every interleaving, every number of goroutines, every message size relative to the 4096-byte buffer", "why_tests_cant": "interleavings are unbounded; message sizes around the buffer boundary change the number of transport writes.", "anchors": ["net.go: conn.Write, conn.Flush, conn.forceWrite, conn.Send", "server.go: response.Write", "request.go: Request.WriteTo"]}
{"id": "C14", "title": "Flushing puts everything accepted so far on the wire", "statement": "When Flush or a reply write returns without error, every message accepted by that connection before it is on the wire completely and in order; nothing stays behind in the buffer.", "quantifier": "every history of sends, replies and flushes, every message size", "why_tests_cant": "unbounded histories and sizes.", "anchors": ["net.go: conn.Flush, conn.forceWrite"]}
{"id": "C15", "title": "A transport failure is sticky and never corrupts order", "statement": "After the transport fails a write (possibly after accepting part of it), the wire holds a prefix of the concatenated messages, every Send, Flush and reply begun after the failure was reported returns an error, and no further byte is written.", "quantifier": "every history, every failure point (any byte of any transport write)", "why_tests_cant": "every failure point of every history.", "anchors": ["net.go: conn.Write, conn.Flush, conn.forceWrite"]}
{"id": "C16", "title": "Package-level Send: order on success, not all-or-nothing on failure", "statement": "When Send succeeds, all requests are on the wire in argument order, completely. The documented 'No data will be written when any of the request failed' does not hold: if a later request fails to serialise, earlier ones stay in the connection buffer and reach the wire with the next flush, or immediately when they exceed the buffer.", "quantifier": "every list of requests, every position of the failing one", "why_tests_cant": "needs a failing request at every position followed by later traffic.", "anchors": ["net.go: Send, conn.Send, conn.Flush"]}
{"id": "C17", "title": "Concurrent Receive on one connection", "statement": "The documentation says multiple goroutines may invoke methods on a Conn simultaneously. With a single receiver framing is preserved (C05, C06); with two concurrent Receive calls it is not: there is an interleaving in which neither call returns either of the two messages that were sent.", "quantifier": "existence of an interleaving over individual transport reads", "why_tests_cant": "depends on the scheduler; a test cannot force the interleaving.", "anchors": ["net.go: Conn, conn.Receive", "request.go: Request.ReadFrom"]}
{"id": "C18", "title": "Write deadline only guards later traffic", "statement": "Users rely on WriteTimeout bounding each write. It does not: the deadline is armed only after Send has returned and never re-armed for replies, so whenever more than WriteTimeout passes after a Send, the next reply fails immediately although the transport is ready, and from then on every write on that connection fails; writes within the window succeed.", "quantifier": "every timeout, every idle period, every later history of writes", "why_tests_cant": "time-dependent and permanent after the fact; tests use no timeouts.", "anchors": ["net.go: conn.Send, conn.forceWrite", "server.go: response.Write"]}
{"id": "C19", "title": "Reply framing", "statement": "For payloads up to 65527 bytes a reply is one frame: header with the given type and transaction, version as given or the request's version when it is zero, length equal to the total size, then the payload verbatim. A failing payload writes nothing. The expectation that bigger payloads are refused (as for requests) does not hold: for every longer payload a frame is written whose length field is the true size modulo 65536, so the peer loses framing.", "quantifier": "every header, every request version, every payload length", "why_tests_cant": "lengths across the 16-bit wrap and all contents.", "anchors": ["server.go: response.Write"]}
{"id": "C20", "title": "Reply pairing", "statement": "Header documentation says replies use the request's transaction id. The response writer never copies it: the transaction on the wire is exactly the one in the header passed by the handler, so a handler that leaves it zero (as the ListenAndServe example does) replies with transaction 0 to every request with non-zero id.", "quantifier": "every request transaction, every reply header", "why_tests_cant": "universal over ids; tests check a fixed header.", "anchors": ["server.go: response.Write, Server.serveReq", "header.go: Header.Transaction"]}
{"id": "C21", "title": "Dispatch picks a registered matching handler", "statement": "Serving a request calls exactly one handler: a handler registered with a matcher that accepts the request if one exists at lookup time, the default handler exactly when no registered matcher accepts, or the discarding handler, only if the matching entry met first is disposable and was taken by a concurrent request (C24); a permanent handler that is the only match is always chosen and stays registered; registrations for other matchers are unaffected.", "quantifier": "every set of registrations, every request, every iteration order of the handler map", "why_tests_cant": "map iteration order is random; tests see one order.", "anchors": ["mux.go: ServeMux.Handler, ServeMux.Serve"]}
{"id": "C22", "title": "A disposable handler runs at most once", "statement": "A handler registered with HandleOnce is selected for at most one request, and after being selected is no longer registered, under every interleaving of concurrent lookups, provided its matcher is not registered again.", "quantifier": "every number of concurrent lookups, every interleaving of their lock sections, every map order", "why_tests_cant": "interleavings cannot be enumerated by tests.", "anchors": ["mux.go: ServeMux.Handler, ServeMux.HandleOnce"]}
{"id": "C23", "title": "Re-registering a disposable handler races", "statement": "Users rely on each HandleOnce registration being consumed by at most one request even when the matcher is registered again. This fails: with two concurrent lookups and one re-registration between their lock sections, the first handler runs twice and the second registration, disposable or permanent, is removed without ever being selected. This can happen in every state with no search going on in which two goroutines are about to serve a request that a disposable entry accepts and a third to register its matcher.", "quantifier": "every state with no search going on; existence of an interleaving", "why_tests_cant": "needs a precise three-party interleaving.", "anchors": ["mux.go: ServeMux.Handler"]}
{"id": "C24", "title": "Losing the race for a disposable handler drops the request", "statement": "Users rely on a request that matches a permanent handler being handled. This fails: when a request also matches a disposable handler and loses the race for it, the request is discarded although the permanent handler matches and is registered throughout. This can happen in every state with no search going on in which two goroutines are about to serve a request that a disposable entry accepts, whatever else is registered.", "quantifier": "every state with no search going on; existence of an interleaving and map order", "why_tests_cant": "needs a precise interleaving and map order.", "anchors": ["mux.go: ServeMux.Handler"]}
{"id": "C25", "title": "Registration errors leave the multiplexer unchanged", "statement": "Registering a nil matcher, a nil handler or a matcher that is already registered panics and leaves all registrations as they were and the lock released; any other registration succeeds, adds exactly that entry, and handlers registered before keep theirs.", "quantifier": "every sequence of registrations", "why_tests_cant": "every history of registrations.", "anchors": ["mux.go: ServeMux.handle, ServeMux.Handle, ServeMux.HandleOnce"]}
{"id": "C26", "title": "TypeMux routes by message type deterministically", "statement": "In a TypeMux a request is given to the handler registered for its type, independently of map order and of the other registrations, and to the default handler when its type has none; only a disposable handler can be missed, when a concurrent request takes it first, and then the request is discarded.", "quantifier": "every set of registrations, every request type (all 256), every map order", "why_tests_cant": "all orders and all registration histories.", "anchors": ["mux.go: TypeMux.Handle, TypeMux.Handler, TypeMatcher.Match"]}
{"id": "C27", "title": "Matchers", "statement": "TypeMatcher accepts exactly its type; MultiMatcher of matchers that only look at the request accepts exactly the requests accepted by all of them (everything for none; for parts that consume the body see C126); TransactionMatcher accepts exactly the requests whose transaction equals the header's transaction after the call, keeps a non-zero transaction unchanged, and later changes of the header do not change what it accepts.", "quantifier": "every request, every list of matchers, every random draw", "why_tests_cant": "universal over requests and random draws.", "anchors": ["mux.go: TypeMatcher.Match, MultiMatcher", "header.go: TransactionMatcher"]}
{"id": "C28", "title": "CookieMatcher decision", "statement": "CookieMatcher accepts a request exactly when its body decodes as the configured message and carries the configured cookie, the one NewCookieMatcher put into the message; a body that cannot be read or decoded is not accepted, and the decision is always reached. Users rely on Match never panicking: this holds for every body when matching PacketIn, FlowRemoved, FlowStatsRequest and AggregateStatsRequest, and is false for FlowMod and FlowStats, where a body with a pop PBB action panics, and for a request without body.", "quantifier": "every request body, every cookie value", "why_tests_cant": "every body content.", "anchors": ["cookie.go: CookieMatcher.Match, CookieReaderOf, NewCookieMatcher", "ofp/flow.go: FlowRemoved.ReadFrom", "ofp/packet.go: PacketIn.ReadFrom"]}
{"id": "C29", "title": "CookieMatcher and the request body", "statement": "Users rely on a handler selected by a CookieMatcher being able to decode the message. This fails for every request received from a connection: after Match (accepting or not) the body is empty, so the handler and any matcher consulted afterwards see no data, and the same request can be accepted or rejected depending on map order. A request made with NewRequest from a payload keeps its content; it is decided on the whole payload. If the payload cannot be written the request is not accepted, but only the first time: the failure is forgotten and the request is left with at most the first 512 bytes that were written, so that the next matcher, or the same one asked again, decides on those and can accept it; a payload that fails without writing anything is decided on as an empty body.", "quantifier": "every received request, every registered set, both outcomes of the match", "why_tests_cant": "tests use non-buffer bodies, for which the body is restored.", "anchors": ["cookie.go: CookieMatcher.Match", "request.go: Request.ReadFrom"]}
{"id": "C30", "title": "MaxConns is never exceeded by one accept loop", "statement": "With one Serve loop and 0 < MaxConns < 2^31 the number of connections being served never exceeds MaxConns, whatever the order of arrivals, terminations and state callbacks; a connection arriving at the limit is closed without any of its requests being handled.", "quantifier": "every sequence of arrivals, request arrivals, errors and scheduling steps", "why_tests_cant": "unbounded histories and interleavings.", "anchors": ["server.go: Server.accept, Server.serve, Server.MaxConns"]}
{"id": "C31", "title": "MaxConns across accept loops and extreme limits", "statement": "Users rely on MaxConns being a server-wide limit. It is not with two Serve loops on one Server: for every limit there is an interleaving serving one more connection than MaxConns; and a MaxConns that is a multiple of 2^32 rejects every connection.", "quantifier": "every limit; existence of an interleaving", "why_tests_cant": "check-then-act race between loops.", "anchors": ["server.go: Server.accept, Server.Serve"]}
{"id": "C32", "title": "Connection accounting", "statement": "The server's connection count always equals accepted-and-not-yet-failed connections: rejected connections are never counted, each served connection is counted once and released exactly once when its receive fails, so after all connections have ended a new connection is accepted again.", "quantifier": "every history of accepts, rejects, terminations", "why_tests_cant": "leaks show only over long histories.", "anchors": ["server.go: Server.accept, Server.serve"]}
{"id": "C33", "title": "Connection state callbacks follow the documented life cycle", "statement": "With a sequential handler runner, the callback trace of every connection is StateNew, then for each request StateHandshake or StateActive (Handshake exactly for Hello messages) followed by StateIdle, and finally at most one StateClosed after which nothing is reported; a rejected connection reports StateNew, StateClosed.", "quantifier": "every request sequence, every termination point", "why_tests_cant": "every history.", "anchors": ["server.go: Server.accept, Server.serve, Server.serveReq, Server.setState", "net.go: ConnState"]}
{"id": "C34", "title": "StateClosed is not terminal with the default runner", "statement": "The documentation calls StateClosed terminal. With the default on-demand runner it is not: there is an interleaving in which StateActive and StateIdle are reported, and the handler runs, after StateClosed of the same connection.", "quantifier": "existence of an interleaving", "why_tests_cant": "scheduler-dependent.", "anchors": ["server.go: Server.serve, Server.serveReq", "net.go: StateClosed"]}
{"id": "C35", "title": "Requests are handled in order, exactly once, until the connection fails", "statement": "With a sequential handler runner the handler is called exactly once per received message of a connection, in arrival order, each call finishing before the next starts, and never for anything after the first receive error; replies written by handlers go to the connection the request came from.", "quantifier": "every message sequence, every number of connections, every interleaving between connections", "why_tests_cant": "unbounded interleavings.", "anchors": ["server.go: Server.serve, Server.serveReq, receiver.receive"]}
{"id": "C36", "title": "Worker pool executes everything exactly once with bounded concurrency", "statement": "A MultiRoutineRunner with num workers starts every submitted function at most once, in submission order, never runs more than num at a time, holds at most num more queued, and when all running functions finish it can always make progress until every submitted function has finished.", "quantifier": "every num, every sequence of submissions and completions, every worker schedule", "why_tests_cant": "unbounded schedules.", "anchors": ["runner.go: MultiRoutineRunner.Run, MultiRoutineRunner.runner, NewMultiRoutineRunner"]}
{"id": "C37", "title": "Submitting from inside a worker can deadlock the pool", "statement": "Users may rely on Run returning control to the caller. For every num there is a reachable state in which all workers are blocked inside Run on the full queue, and no step is possible any more although functions are pending.", "quantifier": "every num; existence of a schedule", "why_tests_cant": "needs the queue to be exactly full.", "anchors": ["runner.go: MultiRoutineRunner.Run"]}
{"id": "C38", "title": "Fixed-size messages survive the wire into any receiver", "statement": "For every fixed-size message of the ofp package (switch features and config, role request, async config, experimenter headers, table mod and stats, port, port status, port stats, queue stats, queue, group, meter, table and port requests, meter and group features, band and bucket counters, aggregate stats, multipart header, description), decoding its encoding yields the same value, consumes and reports exactly its size and leaves the following bytes unread, whatever the receiver held before; text fields come back padded with NUL bytes to their full width.", "quantifier": "every field value, every previous receiver, every continuation", "why_tests_cant": "the tests decode into a receiver already holding the expected value.", "anchors": ["ofp/switch.go", "ofp/handshake.go", "ofp/table.go", "ofp/port.go", "ofp/queue.go", "ofp/group.go", "ofp/meter.go", "ofp/aggregate.go", "ofp/multipart.go", "ofp/description.go"]}
{"id": "C39", "title": "Fixed-size messages have the OpenFlow 1.3 layout", "statement": "Every fixed-size message is encoded with each field big-endian at its OpenFlow 1.3 offset, with the OpenFlow 1.3 total size and all padding zero.", "quantifier": "every field value of every fixed-size message type", "why_tests_cant": "symmetric encoder/decoder mistakes are invisible to round-trip tests on sampled values.", "anchors": ["ofp/switch.go", "ofp/handshake.go", "ofp/table.go", "ofp/port.go", "ofp/queue.go", "ofp/group.go", "ofp/meter.go", "ofp/aggregate.go", "ofp/multipart.go", "ofp/description.go"]}
{"id": "C40", "title": "Truncated fixed-size messages are rejected", "statement": "Decoding any strict prefix of a fixed-size message fails with io.EOF or io.ErrUnexpectedEOF, and the reported count equals the number of bytes available; it never succeeds and never reads past the message.", "quantifier": "every message type, every value, every cut point", "why_tests_cant": "every cut point.", "anchors": ["internal/encoding/encoding.go: ReadFrom"]}
{"id": "C41", "title": "Match fields (OXM) survive the wire", "statement": "Every match entry whose value and mask have equal length (or no mask) and fit the 8-bit length survives encode/decode into any receiver, consuming exactly its bytes; its wire form is class, 7-bit field with mask flag, payload length, value, mask.", "quantifier": "every class, field, value, mask, previous receiver, continuation", "why_tests_cant": "all values and masks.", "anchors": ["ofp/match.go: XM.WriteTo, XM.ReadFrom, XM.readFrom"]}
{"id": "C42", "title": "Match survives the wire and is 8-byte aligned", "statement": "Every match whose entries fit 65535 bytes survives encode/decode into any receiver inside any enclosing message, with all entries in order; its encoding is a multiple of 8 bytes, zero padded, and its length field counts header and entries without padding.", "quantifier": "every list of entries, every previous receiver, every continuation", "why_tests_cant": "unbounded lists; the padding has eight residues.", "anchors": ["ofp/match.go: Match.WriteTo, Match.ReadFrom", "ofp/pad.go"]}
{"id": "C43", "title": "Malformed match bytes", "statement": "Users rely on a truncated or inconsistent match being reported. Complete entries are decoded exactly and a break inside an entry's payload is reported, but a match whose declared length ends inside an entry header (1 to 3 stray bytes) is accepted with those bytes dropped, and so is a message that ends after a complete entry although its declared length, a multiple of 8, announces more. With a declared length of at least 4, decoding never reads beyond the declared length rounded up to 8.", "quantifier": "every byte string", "why_tests_cant": "hostile inputs are unbounded.", "anchors": ["ofp/match.go: readAllXM, Match.ReadFrom"]}
{"id": "C44", "title": "Action lists survive the wire", "statement": "Every list of library actions survives encode/decode with all actions in order and all parameters equal, replacing whatever the receiver held; every encoded action is a multiple of 8 bytes whose length field is its true size, except the experimenter action payload which the caller appends.", "quantifier": "every list of actions with every parameter value, every previous receiver", "why_tests_cant": "unbounded lists and the interaction of set-field padding with following actions.", "anchors": ["ofp/action.go: Actions.WriteTo, Actions.ReadFrom and every action type"]}
{"id": "C45", "title": "Malformed action lists", "statement": "An unknown action type is always reported as an error, and decoding terminates on every input without panic except for action type 27 (pop PBB), which makes the decoder panic. Users rely on truncation being reported; a list cut at an action boundary inside a field (or a set-field action declaring length 4) is accepted, silently dropping the partial action's fields or all following actions.", "quantifier": "every byte string", "why_tests_cant": "hostile inputs are unbounded.", "anchors": ["ofp/action.go: Actions.ReadFrom, ActionSetField.ReadFrom, ActionPopPBB, actionMap", "internal/encoding/encoding.go: ScanFrom"]}
{"id": "C46", "title": "Instruction lists survive the wire", "statement": "Every list of library instructions whose action lists fit 65527 bytes survives encode/decode into an empty receiver; into a non-empty receiver (where users expect replacement, as for actions) the decoded instructions are appended after the old ones; every instruction's length field is its true size and a multiple of 8.", "quantifier": "every list of instructions with nested action lists, every previous receiver", "why_tests_cant": "unbounded nesting of lists.", "anchors": ["ofp/instruction.go: Instructions.WriteTo, Instructions.ReadFrom and every instruction type"]}
{"id": "C47", "title": "FlowMod survives the wire into any receiver", "statement": "Every flow modification (all fields, match, instructions) survives encode/decode into any receiver; its fixed part has the OpenFlow 1.3 layout, and the instructions start at an 8-byte boundary.", "quantifier": "every field value, match and instruction list, every previous receiver", "why_tests_cant": "unbounded contents; receiver reuse.", "anchors": ["ofp/flow.go: FlowMod.WriteTo, FlowMod.ReadFrom"]}
{"id": "C48", "title": "Flow statistics and removals survive the wire", "statement": "FlowRemoved, FlowStatsRequest, AggregateStatsRequest and FlowStats survive encode/decode into any receiver with the OpenFlow 1.3 layout (a FlowStats of at most 65535 bytes, also with an empty instruction list); FlowStats consumes exactly its declared length so that a sequence of entries is decoded as the same sequence.", "quantifier": "every field value, match, instruction list, every previous receiver, every continuation", "why_tests_cant": "unbounded sequences; drift appears only after several entries.", "anchors": ["ofp/flow.go: FlowRemoved, FlowStatsRequest, FlowStats", "ofp/aggregate.go: AggregateStatsRequest"]}
{"id": "C49", "title": "Packet-in and packet-out survive the wire", "statement": "PacketIn and PacketOut survive encode/decode into any receiver with the frame data verbatim; the actions length field of PacketOut is the exact size of the action list, so data bytes are never decoded as actions nor actions as data.", "quantifier": "every frame content, match, action list, previous receiver", "why_tests_cant": "arbitrary binary data that looks like actions.", "anchors": ["ofp/packet.go: PacketIn, PacketOut"]}
{"id": "C50", "title": "Buckets survive the wire and stay inside their length", "statement": "Every group bucket whose actions fit survives encode/decode into any receiver, consumes exactly its declared length and leaves the following bytes, so a sequence of encoded buckets decodes one by one.", "quantifier": "every bucket, every continuation, every previous receiver", "why_tests_cant": "unbounded lists.", "anchors": ["ofp/group.go: Bucket.WriteTo, Bucket.ReadFrom"]}
{"id": "C51", "title": "Decoding list-carrying messages into a fresh value loses the list", "statement": "Users rely on decoded messages containing their elements. For group modification, group description, group statistics, meter modification, meter configuration, meter statistics, hello, packet queues and queue configuration replies the decoder reports success and consumes the elements, but the resulting list is always the receiver's old list (empty for a fresh value), for every input; likewise a port modification decoded into a fresh value has no hardware address and reads its remaining fields from shifted offsets.", "quantifier": "every input byte string, every receiver", "why_tests_cant": "the tests decode into pre-populated values, which hides exactly this.", "anchors": ["ofp/group.go: GroupMod.ReadFrom, GroupDescStats.ReadFrom, GroupStats.ReadFrom", "ofp/meter.go: MeterBands.ReadFrom, MeterMod, MeterConfig, MeterStats", "ofp/handshake.go: HelloElems.ReadFrom", "ofp/queue.go: QueueProps.ReadFrom, QueueGetConfigReply.ReadFrom", "ofp/port.go: PortMod.ReadFrom", "internal/encoding/encoding.go: ReadSliceFrom"]}
{"id": "C52", "title": "Reading entries until EOF terminates", "statement": "Users read multipart replies by decoding entries until an error. For flow, port, queue, table statistics and buckets an empty or exhausted input always gives an error, so the loop ends; for group descriptions and meter statistics it does not: on an exhausted reader they return success with count 0, so the loop never ends.", "quantifier": "every message type, every exhausted reader, every receiver", "why_tests_cant": "non-termination cannot be observed by a finite test run.", "anchors": ["ofp/group.go: GroupDescStats.ReadFrom", "ofp/meter.go: MeterStats.ReadFrom"]}
{"id": "C53", "title": "Table features survive the wire", "statement": "Table features with instruction, next-table, action and experimenter properties and payload-free match properties survive encode/decode into any receiver, each property padded to 8 bytes with its length field excluding padding. Exceptions: a name shorter than 32 bytes comes back filled with NUL, a miss experimenter property comes back as a non-miss one, and a match property whose entries carry values is encoded with a length field that does not cover them, so that the properties after it are read as others without an error.", "quantifier": "every property list, every previous receiver, every continuation", "why_tests_cant": "unbounded property lists and sixteen property kinds.", "anchors": ["ofp/table.go: TableFeatures and every TableProp type"]}
{"id": "C54", "title": "Hello version bitmaps", "statement": "A hello element with an odd number of bitmaps survives encode/decode; with an even number it comes back with one extra zero bitmap, though encoding that again gives the same bytes. Users rely on interoperating with other implementations: the length field written counts the padding, which OpenFlow excludes, and a hello whose element is written as OpenFlow says is refused when its number of bitmaps is even, whatever follows.", "quantifier": "every bitmap list", "why_tests_cant": "parity of the list length.", "anchors": ["ofp/handshake.go: HelloElemVersionBitmap.WriteTo, HelloElemVersionBitmap.ReadFrom"]}
{"id": "C55", "title": "Messages with trailing data survive the wire", "statement": "Echo request and reply, error, experimenter error and multipart request bodies (other than ordinary readers, which cannot be sent) survive encode/decode with the trailing data verbatim, for every data length, into any receiver.", "quantifier": "every data, every previous receiver", "why_tests_cant": "arbitrary data.", "anchors": ["ofp/echo.go", "ofp/error.go", "ofp/multipart.go"]}
{"id": "C56", "title": "Declared lengths are the truth", "statement": "For every variable-size element the library writes (actions, instructions, buckets, statistics entries, bands, queue and table properties, hello elements), the length field equals the number of bytes the element occupies on the wire as long as that fits 16 bits, and wraps modulo 65536 otherwise. A match and a table property count everything but their padding to eight bytes (table properties holding fields with values are the exception described elsewhere); a hello element counts its padding. A match entry's one-byte length is the size of its payload, modulo 256.", "quantifier": "every element with every nested content", "why_tests_cant": "unbounded nesting; wrap-around needs huge inputs.", "anchors": ["ofp/action.go", "ofp/instruction.go", "ofp/group.go", "ofp/meter.go", "ofp/queue.go", "ofp/table.go", "ofp/handshake.go", "ofp/flow.go"]}
{"id": "C57", "title": "Decoders report the bytes they consumed", "statement": "Every decoder of a fixed-size message reports exactly the bytes it consumed, on success and on error. Users rely on this for list decoders too; it fails there: a list followed by one stray byte is accepted, the byte is consumed and not counted.", "quantifier": "every input, every decoder, success and error paths", "why_tests_cant": "every input.", "anchors": ["internal/encoding/encoding.go: ReadFrom, ScanFrom"]}
{"id": "C58", "title": "Bitmap helpers set exactly the requested bits", "statement": "A reason bitmap built from any list of reasons below 32 has bit i set exactly when i is in the list, regardless of order and duplicates; reasons of 32 and above contribute nothing; Bitmap64 and Bitmap128 place their arguments in order, so the asynchronous configuration and group features messages built from them arrive with exactly these bits. Users of ActionBitmap rely on every action type being representable; the experimenter action (65535) is silently left out.", "quantifier": "every list of reasons", "why_tests_cant": "unbounded lists.", "anchors": ["ofputil/bitmap.go"]}
{"id": "C59", "title": "Flow flush and drop requests", "statement": "What the peer decodes from TableFlush(t) deletes exactly the entries of table t (of every table for 255), whatever their cookies, ports and groups; from FlowFlush(t, m) exactly those of them that m covers; from FlowDrop(t) it adds to table t the lowest-priority, permanent entry that matches everything and does nothing.", "quantifier": "every table id, every match", "why_tests_cant": "universal over tables and matches.", "anchors": ["ofputil/flow.go"]}
{"id": "C60", "title": "Echo and hello handlers answer their request", "statement": "The echo handler answers every echo request with an echo reply of the same version, transaction and data; the hello handler answers every hello with a hello of the configured version and same transaction. Documented 'replies to each request with hello message' and 'executed in case of successful message submission' do not hold: for a request of another type the reply has that type, and the optional handler runs even when the write failed. The handler chained after the echo handler finds the request's body empty. A configured version of 0 means the version of the request. A request whose body cannot be read is neither answered nor passed on; one without a body makes the echo handler panic.", "quantifier": "every request, every version, success or failure of the write", "why_tests_cant": "universal over requests and failures.", "anchors": ["ofputil/handler.go: EchoHandler, HelloHandler"]}
{"id": "C61", "title": "Test server Close leaves a connection open", "statement": "Users rely on the test server's Close closing all client connections, and on calling it repeatedly. Unless a close takes over five seconds, every connection reported as new before Close was called is closed when it returns; at most one accepted connection is not: the one accepted but not yet reported, which then stays open for ever. Calling Close again returns at once and changes nothing, concurrent calls never deadlock, and nothing is accepted after Close has returned. Calling CloseClientConnections itself closes every connection reported so far, but is a data race while the server accepts. No other connections are ever closed by the test server.", "quantifier": "every schedule of accept, callback and Close", "why_tests_cant": "scheduler-dependent.", "anchors": ["ofptest/server.go: Server.Close, Server.wrap"]}
{"id": "C62", "title": "A connection never loses its lock", "statement": "However sends, replies and flushes of several goroutines interleave and whether the transport accepts or fails writes, as long as some goroutine has an operation to finish at least one goroutine can take a step: no failure path leaves the connection locked.", "quantifier": "every interleaving, every number of goroutines, every failure point", "why_tests_cant": "a lock leaked on one error path shows only when that path is followed by another operation.", "anchors": ["net.go: conn.Write, conn.Flush, conn.forceWrite, conn.Send"]}
{"id": "C63", "title": "The multiplexer does not deadlock while matchers return", "statement": "However registrations and lookups of several goroutines interleave, as long as some goroutine has an operation to finish and matchers return, at least one goroutine can take a step.", "quantifier": "every interleaving, every number of goroutines, every map order", "why_tests_cant": "interleavings of two lock sections per lookup cannot be enumerated by tests.", "anchors": ["mux.go: ServeMux.Handler, ServeMux.handle"]}
{"id": "C64", "title": "A panicking matcher locks the multiplexer", "statement": "Users that recover from a panic in a matcher rely on the multiplexer staying usable, as it does after a panicking registration. It does not: the read lock is never released, so from then on no registration completes and no disposable handler is selected. With the lock of the standard library, in which a waiting writer keeps new readers out, it gets worse: as soon as anybody tries to register or to dispose of an entry, that goroutine hangs for ever, and from then on no dispatch ends but those that were searching at that moment.", "quantifier": "every history before and after the panic", "why_tests_cant": "the effect is a blocked goroutine some time later.", "anchors": ["mux.go: ServeMux.Handler"]}
{"id": "C65", "title": "No message is handled twice or invented, whatever the runner", "statement": "With any number of Serve loops, any MaxConns and either the sequential or the default on-demand handler runner, the handler calls made for a connection are always part of the messages its peer sent, each at most once; without MaxConns, once nothing is left to do, every message of every connection has been handled exactly once.", "quantifier": "every message list, every number of connections and accept loops, every interleaving", "why_tests_cant": "the default runner orders handlers arbitrarily; tests observe one order.", "anchors": ["server.go: Server.serve, Server.serveReq", "runner.go: OnDemandRoutineRunner.Run"]}
{"id": "C66", "title": "Looking up a match field", "statement": "Match.Field returns the first entry of the requested type, and nil exactly when the match has no entry of that type.", "quantifier": "every match, every field type", "why_tests_cant": "lists with several entries of one type are unbounded.", "anchors": ["ofp/match.go: Match.Field"]}
{"id": "C67", "title": "Malformed instruction lists", "statement": "An unknown instruction type (including experimenter) after any instructions is reported as an error, leaving the instructions before it decoded; decoding ends on every input; a pop PBB action at an action boundary inside an apply or write instruction makes the decoder panic, whatever precedes and follows, and nothing else does. Every byte string is read as the complete instructions it begins with (fixed-size ones are taken by their type alone, those with actions extend over their length field, 0 to 7 standing for 65528 to 65535 bytes of actions) and what is there of one more that breaks off, which is appended too. Nothing is reported if the end comes between two members of an instruction or action or after a complete action, even if the length field announces more; all other breaks are reported as an unexpected end or as the unknown type found. (For actions of at most 4096 bytes per instruction; beyond that what the reader has buffered matters, see C90.)", "quantifier": "every byte string, every content of the list before", "why_tests_cant": "hostile inputs are unbounded.", "anchors": ["ofp/instruction.go: Instructions.ReadFrom, readInstructionActions", "ofp/action.go: actionMap"]}
{"id": "C68", "title": "Meter bands and queue properties survive the wire", "statement": "Every meter band and every queue property survives encode/decode into any value of its type, consumes exactly the bytes it occupies and leaves the rest; they and the group, meter and queue messages around them have the byte layout of OpenFlow 1.3, nested lists included.", "quantifier": "every band, property and message with lists of any length, every continuation, every previous receiver", "why_tests_cant": "unbounded lists and experimenter data.", "anchors": ["ofp/meter.go: MeterBandDrop, MeterBandDSCPRemark, MeterBandExperimenter", "ofp/queue.go: QueuePropMinRate, QueuePropMaxRate, QueuePropExperimenter", "ofp/group.go"]}
{"id": "C69", "title": "Which multipart requests can be sent, and how often", "statement": "Users rely on being able to put any reader into a multipart request and to forward received requests. A new multipart request can be written any number of times with the same bytes: its type, no flags, padding and the payload, or the error of a failing payload; one whose body is an ordinary reader is refused with an error, whatever the reader holds; a received one can be written once, after that it still writes without error but its body is gone.", "quantifier": "every type, every flags, every reader, every body", "why_tests_cant": "the failure depends on the dynamic type of the body and on the history of the value.", "anchors": ["ofp/multipart.go: MultipartRequest.WriteTo, NewMultipartRequest", "internal/encoding/encoding.go: WriteTo"]}
{"id": "C70", "title": "Reading the body of a new multipart request", "statement": "Reading the body of a new multipart request with buffers of any size yields the encoded payload once, in order, and then io.EOF; if the payload cannot be encoded, every read reports that error and no data. The documentation says that a nil body means the request has no body: that is so only for requests made locally, whose body cannot be read (every read panics); a received request always has a body that can be read, and when none was sent it reports io.EOF at once.", "quantifier": "every payload, every sequence of buffer sizes", "why_tests_cant": "sequences of reads are unbounded.", "anchors": ["ofp/multipart.go: reader.Read"]}
{"id": "C71", "title": "Delivery from sender to receiver", "statement": "A message sent as the body of a new request is exactly what the peer decodes from the request it receives, under every fragmentation of the byte stream: fixed-size messages, echo, error, flow modification, flow removed, flow and aggregate statistics requests, packet-in and packet-out, up to the maximum message size. The same holds for a message inside a multipart request.", "quantifier": "every well-formed message, every transaction id, every fragmentation, every previous receiver", "why_tests_cant": "fragmentations and message contents are unbounded and interact across layers.", "anchors": ["request.go: Request.WriteTo, Request.ReadFrom", "ofp/*.go", "ofp/multipart.go"]}
{"id": "C72", "title": "Field lists of other implementations in table features", "statement": "A match, wildcards or set-field property as other implementations write it (bare match headers carrying the length a payload would have) is accepted, but every field comes back with a value (and mask) of zeros of that length. Sending the received features on writes those zeros without counting them in the length field, and reading that back yields properties that were never there.", "quantifier": "every list of field headers, every continuation, every previous receiver", "why_tests_cant": "needs another implementation's encoding.", "anchors": ["ofp/table.go: readTablePropXM, writeTablePropXM", "ofp/match.go: XM.readFrom"]}
{"id": "C73", "title": "Malformed table features", "statement": "An unknown property type after any properties is reported as an error that leaves the properties before it decoded and the bytes behind the message unread; decoding ends on every input.", "quantifier": "every property list before, every byte string after", "why_tests_cant": "hostile inputs are unbounded.", "anchors": ["ofp/table.go: TableFeatures.ReadFrom", "internal/encoding/encoding.go: ScanFrom"]}
{"id": "C74", "title": "Flow modifications made for a packet-in", "statement": "A flow modification created for a packet-in has the given command, that packet's buffer and match, priority 0, table 0 and no instructions; it asks for a removal message exactly when the command does not delete, and never for the overlap check its comment announces; as a deletion it is restricted by nothing but table and match. Users rely on the default for a missing packet-in being the empty match; it is a match of the deprecated type 0 instead of the extensible type 1.", "quantifier": "every command, every packet-in", "why_tests_cant": "universal over packet-in messages; the missing default is not visible in the value.", "anchors": ["ofp/flow.go: NewFlowMod"]}
{"id": "C75", "title": "Match field helpers and their numbers", "statement": "Each helper that builds a match field produces the OpenFlow basic field of that name; after the match was sent, looking the field up and reading it as a number of the same width gives the number back, wherever it stands in the match. Reading a value as a wider number than it holds silently gives 0, and as a narrower one gives its leading bytes.", "quantifier": "every number, every list of other fields around it", "why_tests_cant": "universal over values and surrounding fields.", "anchors": ["ofputil/match.go", "ofp/match.go: XMValue.UInt8, XMValue.UInt16, XMValue.UInt32, Match.Field"]}
{"id": "C76", "title": "What a handler wrote to the response recorder", "statement": "The response recorder keeps every write in order and reports no error; First and Last are the ends of All and panic before the first write. A recorded response with a version and a payload that serialises to at most 65527 bytes is byte for byte what a real connection would send. Users rely on this in general; it fails for a header without version (the connection fills in the request's version, the recorder does not), for a payload that fails to serialise (no error), and for a longer payload.", "quantifier": "every sequence of writes, every header, every payload", "why_tests_cant": "compares two implementations for every input.", "anchors": ["ofptest/recorder.go", "server.go: response.Write"]}
{"id": "C77", "title": "Receiving under a read timeout", "statement": "A message whose bytes have all arrived within ReadTimeout of the call of Receive is received, however it was split up; the timeout starts anew with every Receive, so a series of messages that each arrive in time is received completely; without ReadTimeout Receive waits for ever. Users rely on being able to call Receive again after a timeout: that is so if no byte of the next message had arrived, but otherwise the bytes that had arrived are lost and the next Receive starts in the middle of the message, so that bytes inside a message body are delivered as a message nobody sent.", "quantifier": "every message, every arrival times and pieces, every fragmentation of reads, every timeout, every sequence of calls", "why_tests_cant": "depends on when bytes arrive relative to the deadline.", "anchors": ["net.go: conn.Receive", "request.go: Request.ReadFrom"]}
{"id": "C78", "title": "Flow entries built from a packet-in and instruction helpers", "statement": "A flow modification made for a packet-in with the instructions of any sequence of the helpers for applying, writing and clearing actions arrives at the peer with that packet's buffer and match, and executing the instructions the peer decodes does what the helper calls say, in their order: each helper yields one instruction of the right type whose length field is its true size.", "quantifier": "every packet-in, every sequence of helper calls with action lists up to 65527 bytes, every fragmentation", "why_tests_cant": "universal over action lists and call sequences.", "anchors": ["ofputil/actions.go", "ofp/flow.go: NewFlowMod", "ofp/instruction.go"]}
{"id": "C79", "title": "Serving connections on a worker pool", "statement": "With a pool of n workers as ConnRunner (which the documentation recommends), at most n connections are served at a time, in the order of acceptance, and no connection waits while a worker is free. Users rely on every accepted connection being served or refused: at most 2n+1 connections are accepted and open, so MaxConns above 2n never refuses anybody, and while the n served connections stay open no other connection is ever served, although its StateNew was reported.", "quantifier": "every number of workers, every MaxConns, every interleaving", "why_tests_cant": "unbounded interleavings; starvation is not observable in finite time.", "anchors": ["server.go: Server.accept, Server.serve", "runner.go: MultiRoutineRunner"]}
{"id": "C80", "title": "One worker pool for connections and handlers", "statement": "Users may set the same worker pool as ConnRunner and HandlerRunner. As soon as all workers serve connections no request is handled while these stay open; and for every pool size and limit there is a run with one connection per worker and two requests on each after which nothing is ever handled, closed or served again, even when all peers hang up.", "quantifier": "every number of workers, every MaxConns, every interleaving", "why_tests_cant": "deadlock under particular interleavings; unbounded schedules.", "anchors": ["server.go: Server.serve", "runner.go: MultiRoutineRunner.Run"]}
{"id": "C81", "title": "Relaying fixed-size messages", "statement": "Any bytes at least as long as a fixed-size message, from any sender, decode to the message whose fields stand at the protocol's offsets, whatever the padding and the receiver held before; encoding that message again gives the received bytes back with zeros in the padding, so byte for byte if the sender had zeros there, and messages that differ only in their padding decode alike. A relay may therefore decode and re-encode such messages without changing them.", "quantifier": "every kind of fixed-size message, every input bytes, every receiver", "why_tests_cant": "universal over received bytes; tests start from values, not from foreign bytes.", "anchors": ["header.go: Header.ReadFrom", "ofp/*.go: ReadFrom and WriteTo of the fixed-size messages", "internal/encoding/encoding.go: ReadFrom"]}
{"id": "C82", "title": "Printed names of protocol values", "statement": "Two message types, actions, instructions, multipart types, match fields, match classes, table properties, packet-in reasons, error types, tables or connection states print alike only if they are equal, and two errors only if type and code are equal, so a log line identifies the value. Each of these values prints the name OpenFlow 1.3 gives to its number, and a number without a name prints as a number; the type of an action or instruction prints its kind, and an error prints the name of its code exactly for the codes OpenFlow 1.3 defines, else the number. Users would expect every constant to print its own name; XMClassExperimenter prints XMClassExperimeter.", "quantifier": "every value of every printed type, every error type and code", "why_tests_cant": "injectivity over all values, including numbers without a name.", "anchors": ["header.go: Type.String", "ofp/error.go: Error.String, ErrType.String", "ofp/action.go: ActionType.String", "ofp/match.go: XMClass.String, XMType.String", "net.go: ConnState.String"]}
{"id": "C83", "title": "Printed port flags", "statement": "The text of port features and of a port configuration lists exactly the known flags that are set, in the order of their bits (\"up\" first unless the port is down); two values print alike exactly if their known flags are equal. Users rely on the same for the port state; any state with more than one flag prints \"link up\", also one with the link-down flag.", "quantifier": "every 32-bit value", "why_tests_cant": "injectivity over all combinations of flags.", "anchors": ["ofp/port.go: PortFeature.String, PortConfig.String, PortState.String"]}
{"id": "C84", "title": "Lists of port descriptions read back in order; a list cut between two port members is accepted as complete", "statement": "Reading a list of ports consumes the whole input. Every complete 64-byte port is appended, in order, with each member taken from its protocol offset, after whatever the list already held (reading a second answer into the same list accumulates). If the input ends at a port's end or anywhere between two members of a further port, the list is reported complete without error and the partial port is dropped; if it ends inside a member, the read fails with an unexpected-end error and the partial port is appended to the list. So a truncated port description answer can be taken for a complete one.", "quantifier": "for all input byte sequences (any length and content), all lists of ports, all contents of the receiving list, all cut positions", "why_tests_cant": "the number of ports, their contents and the cut position are unbounded; whether a truncation is detected depends on which of the 64 positions in a port it falls on, and a test with one or two whole ports sees neither the silent cut nor the accumulation", "anchors": ["ofp/port.go:321-342", "ofp/port.go:307-318", "internal/encoding/encoding.go:90-113"]}
{"id": "C85", "title": "A fixed-size message cut between two members is reported as the plain end of the stream", "statement": "Decoding a fixed-size message from too few bytes always fails, consumes all of them and reports their number. The error is the end-of-stream error when the bytes end exactly where a member of the protocol structure begins (the empty input included), and the unexpected-end error otherwise. Every message kind has non-empty cuts that are reported exactly like the absence of any message, so the error alone does not tell a partial message from none; the byte count does.", "quantifier": "for all 26 fixed-size message kinds, all receivers, all inputs shorter than the message", "why_tests_cant": "the claim ranges over every truncation point and content of every kind; tests check at most a few truncations and usually only that some error occurs", "anchors": ["internal/encoding/encoding.go:90-113", "header.go:206-261", "ofp/port.go:307-318", "ofp/description.go:66-84", "ofp/meter.go:362-393"]}
{"id": "C86", "title": "A served connection, from the peer's bytes to the bytes of the replies", "statement": "When handlers run in sequence, what a peer has been sent at any moment is the replies its handler wrote for its first so many requests: complete frames, in the order of the requests and of the writes within one, however the connections of the server are scheduled; other connections' replies never appear in it. Without a connection limit, once the server is at rest, every request has been answered. In particular, a controller that registers HelloHandler and EchoHandler by message type answers any stream of messages, in whatever pieces it arrives, with exactly one hello per hello (in the configured version, same transaction) and one echo reply per echo request (same version, transaction and data), nothing else, in order, and the peer reads them back as such. With the default runner (a goroutine per request) the order of answers is not kept.", "quantifier": "for all message streams (any number, type, transaction and body up to 65527 bytes), all fragmentations, all schedules of any number of connections and accept loops, all handlers that write messages of at most 65527 bytes", "why_tests_cant": "composes reading, scheduling, dispatch, handlers and buffered writing over unbounded streams and interleavings; tests drive one or two messages through one schedule", "anchors": ["server.go:255-343", "server.go:58-90", "request.go:105-216", "mux.go:114-208", "ofputil/handler.go:16-66", "net.go:136-187"]}
{"id": "C87", "title": "Messages of varying size are read alike whatever their padding holds, and relayed unchanged outside it", "statement": "Bytes that carry every numbered, textual and raw item of a well-formed match, action list, instruction list, group bucket, flow modification, flow-removed, flow or aggregate statistics request, flow statistics entry, packet-in or packet-out are decoded as that message, completely and without error, whatever the padding bytes (between fields, after a match, after a set-field entry, inside instructions) hold and whatever the receiver held before (an instruction list grows). Encoding the result gives the received bytes back at every position that is not padding, and zero at every padding position. Two receptions are read alike exactly if they say the same.", "quantifier": "for all 11 kinds, all well-formed contents of any size, all padding contents, all receivers", "why_tests_cant": "other implementations may leave anything in padding; tests decode bytes whose padding is zero, and nested variable-size structures have unboundedly many padding positions", "anchors": ["ofp/match.go:464-513", "ofp/action.go:172-642", "ofp/instruction.go:108-341", "ofp/group.go:148-182", "ofp/flow.go:214-497", "ofp/aggregate.go:67-79", "ofp/packet.go:105-191"]}
{"id": "C88", "title": "Which received matches are reproduced when written again", "statement": "A match entry read from any sender is written back byte for byte exactly if its mask flag is clear or its payload has an even, positive number of bytes. Otherwise the decoder accepts it silently and the written form differs: with an odd masked payload the last byte disappears and the length field shrinks; with the mask flag and at most one byte of payload the mask flag disappears too. A match is reproduced up to its padding exactly if all its entries are so and no stray bytes (one to three bytes too few for another entry) follow them; stray bytes are dropped without an error. The decoded value itself is stable: reading the written form gives the same match.", "quantifier": "for all complete entries (any class, field, flag, payload of up to 255 bytes), all entry lists, all stray bytes, all receivers", "why_tests_cant": "the set of reproduced matches is an exact characterisation over all byte strings; tests relay a few well-formed matches", "anchors": ["ofp/match.go:319-401", "ofp/match.go:464-513"]}
{"id": "C89", "title": "Reading any message from any bytes returns; only a pop-PBB action type can make it panic", "statement": "For every message and message part that can be read, every value read into and every sequence of bytes: ReadFrom returns, leaves a tail of the bytes, and either succeeds or reports that there was no data, too little data, or an element of unknown type. The only exception are the parts and messages with actions (action and instruction lists, flow modifications and statistics, packet-out, buckets, group modifications and descriptions): they can panic instead, but only if the two bytes 00 1b (the type of a pop PBB action) stand next to each other somewhere in the input; for each of these a short input that panics exists.", "quantifier": "all readable kinds, all receivers, all byte sequences", "why_tests_cant": "Quantifies over all byte sequences of unbounded length for over fifty decoders; fuzzing samples finitely many and cannot show that the panic has a single cause.", "anchors": ["internal/encoding/encoding.go:160-245", "ofp/action.go:110-140", "ofp/instruction.go:61-138", "ofp/match.go:319-401", "ofp/table.go:159-191", "ofp/meter.go:492-500", "ofp/group.go:342-349", "ofp/port.go:325-342"]}
{"id": "C90", "title": "Bytes of a silently given up action list can become packet data or further instructions", "statement": "For all messages whose actions are complete, the packet of a packet-out is exactly what follows the declared action length and a list of instructions is read back as written, however much of the input the internal 4096-byte buffer has read ahead. This confinement fails when a set-field action of length 4 (no room for a field) stands in the list: reading reports no error, and the part of the declared action region that had not been read ahead is returned as the beginning of the packet (packet-out), respectively decoded as further instructions (apply/write actions). With the buffer of the code, a packet-out whose declared action region covers its whole input still yields 8 bytes of packet, and a single apply-actions instruction of declared length 4104 decodes as itself followed by a goto-table instruction hidden in it.", "quantifier": "all packet-outs, instruction lists, positions of the bad action, amounts read ahead", "why_tests_cant": "The effect depends on the size of an internal buffer and only shows for inputs beyond 4096 bytes with a particular malformed action; the confinement half is quantified over all inputs and all buffer states.", "anchors": ["internal/encoding/encoding.go:204-245", "ofp/packet.go:171-191", "ofp/instruction.go:123-138", "ofp/instruction.go:224-244", "ofp/action.go:197-214", "ofp/action.go:571-597"]}
{"id": "C91", "title": "A cookie matcher looks at one place of the body, whatever the message: siblings are found, packet-ins and multipart statistics are not", "statement": "NewCookieMatcher changes nothing of the given message but its cookie, accepts that message once sent, and decides every other message of the same type by its cookie. It does not check the message type: it only accepts bodies with the cookie at the place its own message type has it. Consequently a matcher made from a flow modification decides every flow-removed message by its cookie and vice versa, likewise flow and aggregate statistics requests for each other. But users who match packet-ins with the cookie of a flow modification (or flow-removed) do not get them: such a matcher accepts a packet-in only if buffer, length, reason and table spell the cookie, so packet-ins with the cookie are missed and ones without it are taken. And a matcher made from a statistics message does not find it on the wire, where it stands behind a multipart header: it accepts only if out-group (requests) or hard timeout and flags (flow statistics) spell the cookie.", "quantifier": "all messages of the six types with cookies, all cookies, all requests", "why_tests_cant": "The unit tests feed the matcher a body of its own type without multipart header; the confusion depends on relations between the layouts of different messages over all values.", "anchors": ["cookie.go:50-65", "cookie.go:72-97", "cookie.go:103-123", "ofp/packet.go:94-101", "ofp/aggregate.go:54-62", "ofp/flow.go:214-221", "ofp/flow.go:310-317", "ofp/flow.go:381-389", "ofp/flow.go:450-458", "ofp/multipart.go:239-242"]}
{"id": "C92", "title": "Serving connections one after another", "statement": "Users who set ConnRunner to SequentialRunner rely on connections being served strictly one after another. With one Serve call every connection has been reported as closed, and closed, before the next one is reported as new, whatever handlers are still running; if handlers run one after another too, the whole sequence of callbacks, handler calls and closes is fixed by the messages of the connections in the order of accepting. No more connections are served than Serve was called, so a MaxConns not below that number turns nobody away. As long as the peer being served sends nothing, no other connection is accepted or turned away. Nothing is possible that the default runner would not allow.", "quantifier": "every MaxConns, every number of Serve calls, every runner of handlers, every schedule and every sequence of messages", "why_tests_cant": "the order has to hold for every interleaving of goroutines, and the blocking is a statement about all futures.", "anchors": ["server.go: Server.Serve, Server.accept, Server.serve", "runner.go: SequentialRunner.Run"]}
{"id": "C93", "title": "An accept that fails", "statement": "Users rely on a server surviving passing accept errors, such as too many open files, and on accepted connections being served to their end. Serve returns with the first error of Accept, whatever it is, having closed its listener, and accepts nothing afterwards; there is no retry, so one passing error ends a server with one Serve call for ever. Other Serve calls go on, and the connections accepted so far can be finished: without limit and with handlers run one after another every message of each of them is then handled in order and the connection closed.", "quantifier": "every error, every moment, every number of Serve calls, both simple runners of connections, every history", "why_tests_cant": "the failure can come at any moment of any interleaving and the claim is about all continuations.", "anchors": ["server.go: Server.Serve, Server.accept"]}
{"id": "C94", "title": "Lists kept from a message that is read again", "statement": "Users rely on a list they took from a message staying what it was when the same message value is read again (to spare allocations). With the arrays behind the slices made explicit: reading actions, the fields of a match or the properties of table features changes no list that existed. Reading a table property that lists instructions, actions or fields overwrites the list taken from it before, entry by entry, with what it reads now, as soon as the four header bytes are in and even if the read then fails; the copy keeps its length, so it ends up as a mixture; lists on other arrays and reads into a property without an array (as table features make them) change nothing. Reading instructions or ports (which are appended), meter bands, queue properties, hello elements, buckets, counters, band statistics or queues (whose receiver keeps its list) leaves a copy of the receiver's list alone, but a longer list the receiver was cut down from is overwritten behind it, for the last four kinds with the last element only.", "quantifier": "every state of the arrays, every choice of capacities by the runtime, every input, every slice kept", "why_tests_cant": "which arrays are shared depends on capacities the runtime chooses and on the history of the value; tests that compare a fresh value with a read one never look at an old copy.", "anchors": ["ofp/table.go: readTablePropXM, readTablePropActions, TablePropInstructions.ReadFrom, TableFeatures.ReadFrom", "ofp/action.go: Actions.ReadFrom", "ofp/match.go: Match.ReadFrom, readAllXM", "ofp/instruction.go: Instructions.ReadFrom", "ofp/port.go: Ports.ReadFrom", "internal/encoding/encoding.go: ReadSliceFrom", "ofp/meter.go: MeterBands.ReadFrom", "ofp/queue.go: QueueProps.ReadFrom", "ofp/handshake.go: HelloElems.ReadFrom"]}
{"id": "C95", "title": "Peers that send requests ahead of reading replies", "statement": "Users rely on a served connection making progress when the peer sends several requests before it reads replies, and on a peer that reads nothing not using up the server. For all sizes of requests and replies and every (non-empty) capacity of the buffers in both directions: every execution comes to rest after a bounded number of steps. A peer that always reads gets every reply with either runner; with the default runner also a peer that reads only after its last request. With SequentialRunner the latter gets everything exactly if, whenever the first replies exceed the capacity towards the peer, the requests behind the next one fit into the capacity towards the server; otherwise both sides wait for each other, the peer never gets a byte, whatever the schedule. The price: with SequentialRunner there is never more than one handler that has not returned, while with the default runner a peer that never reads leaves every handler unfinished whose reply does not fit into the buffers, as many as it sends requests; nothing holds it back.", "quantifier": "every list of request and reply sizes, buffer capacities, runner, reading habit and schedule of all parties", "why_tests_cant": "whether both sides lock depends on buffer capacities, sizes and the schedule; tests use one small request at a time and read its reply before the next.", "anchors": ["server.go: receiver.receive, receiver.start, Server.serve, Server.serveReq, response.Write", "net.go: conn.Receive, conn.forceWrite", "runner.go: OnDemandRoutineRunner.Run, SequentialRunner.Run"]}
{"id": "C96", "title": "Replies at the end of a connection", "statement": "Users rely on a request that was received being answered even if it was the peer's last (a peer that sends its requests, ends its side of the stream and reads until the end). For any number of messages and replies and any schedule of the connection's loop and handlers: every execution ends, with the connection closed and the handler of every message returned once. With SequentialRunner the close comes after all replies, complete and in order. In general the peer gets the complete replies of exactly those handlers whose Write returned no error, in the order of their returns, and perhaps the beginning of one more; nothing is added after the close. With the default runner nothing more holds: for every choice of replies, in any order, with a piece of any other reply behind them, there is a schedule in which this is all the peer ever gets, down to nothing or half a frame, although every message was received and handled.", "quantifier": "every list of replies (any bytes), both runners, every schedule; every choice of replies and every cut", "why_tests_cant": "the race between the close and the handlers depends on the scheduler; tests read the reply before they close.", "anchors": ["server.go: Server.serve, Server.serveReq, receiver.receive, response.Write", "net.go: conn.forceWrite, conn.Close", "runner.go: OnDemandRoutineRunner.Run, SequentialRunner.Run"]}
{"id": "C97", "title": "ReadTimeout of a server counts the time its handlers take", "statement": "Users rely on ReadTimeout dropping peers that are slow to send, not peers that wait for the server. For a peer that sends a request, waits for the reply, takes its time and sends the next, for all these times and all orders of simultaneous events: without a timeout, or if the time from each request to the next (handler's time plus peer's time) and, with the default runner, each handler's time stay below the timeout, the peer gets every reply and is not disconnected before. But the timeout runs while the handler does: if a handler's time plus the peer's time before its next request exceed it, the next request is never answered, even if the peer sends it at once; with the default runner a handler that takes longer than the timeout loses its own reply, with SequentialRunner that reply still arrives. In general the replies are those up to the first such excess.", "quantifier": "every ReadTimeout, runner, number of requests, times of peer and handlers, and order of simultaneous events", "why_tests_cant": "needs handlers slower than the timeout and its interplay with the reader goroutine; tests use fast handlers and no timeout.", "anchors": ["server.go: Server.ReadTimeout, receiver.receive, Server.serve, Server.serveReq", "net.go: conn.Receive", "runner.go: OnDemandRoutineRunner.Run, SequentialRunner.Run"]}
{"id": "C98", "title": "Reading into a request that was used before", "statement": "Users who read messages into one Request value again and again rely on a read replacing what was there. What ReadFrom reports and consumes never depends on the former content, and a successful read leaves nothing of it (beyond the address and connection, which it does not touch). A failing read leaves a mixture: if it fails after the header (declared length below 8, or the body cut short) the request has the new header and version numbers with the former body and content length; if it fails within the header, exactly the fields that were complete are new. Such a request can still be sent, and then puts a well-formed message on the wire that nobody wrote: new version, type and transaction with the former body.", "quantifier": "every former content, every input, fragmentation and final error", "why_tests_cant": "needs a failing read into a value with history; tests read into fresh values.", "anchors": ["request.go: Request.ReadFrom, Request.WriteTo", "header.go: Header.ReadFrom"]}
{"id": "C99", "title": "Replies written with one Header value", "statement": "The response writer completes the Header it is given: it stores version and length in the caller's value. Users who keep one Header for a kind of reply rely on each reply being right. Written one after another, the replies have correct lengths, types, transactions and payloads, but a Header without version keeps the version of the first request that had one, so that later requests of other versions are answered in the wrong version. Written by several handlers at a time (default runner), for every order of their accesses: each message has the right type, transaction and payload, but its length is that of some of the replies and its version the given one, or that of some of the requests. This is enough if the payloads are equally long and the version is given or the same for all; otherwise a reply can go out with the length of another one, so that its peer loses the framing.", "quantifier": "every Header, number of handlers, request versions, payloads and order of accesses", "why_tests_cant": "needs a Header shared between requests of different versions or between goroutines; tests use a new Header for each reply.", "anchors": ["server.go: response.Write, Server.serveReq", "header.go: Header.WriteTo"]}
{"id": "C100", "title": "What a read that fails leaves in the value", "statement": "Users who read into a value that already has content, or who look at a value after an error, rely on knowing what it holds. For every fixed-size message but the switch description, wherever the stream breaks off, exactly the members that were complete hold what the whole message would have given and all others their former content; the switch description is all or nothing. Port descriptions (also within a port status, once its own part was read) are the exception: even a read that gets no byte at all replaces hardware address and name by zeros. Lists keep the element that was broken off: an action list ends with an action of the announced type whose incomplete parameters are zero; table features end with a property without content, and a broken-off next-tables property lists table 0 as often as its length field says (modulo 65536) - without any error if nothing of the list was there, so that 68 bytes are accepted as a table leading to 65532 tables.", "quantifier": "every former content, every message and every position at which the stream ends; every complete list before the broken-off element", "why_tests_cant": "needs every cut position combined with a receiver that has content; tests read complete messages into zero values.", "anchors": ["ofp/port.go: Port.ReadFrom, PortStatus.ReadFrom", "ofp/description.go: Description.ReadFrom", "ofp/action.go: Actions.ReadFrom", "ofp/table.go: TableFeatures.ReadFrom, TablePropNextTables.ReadFrom", "internal/encoding/encoding.go: ReadFrom, ScanFrom"]}
{"id": "C101", "title": "Writing a message into a destination that may fail", "statement": "Whatever a destination does with each Write call (take all, some or none of it, with or without an error, depending on everything before), WriteTo of every message and message part returns the number of bytes the destination kept, these are a beginning of the encoding, and a nil error means all of it. The parts of the encoding are offered in order, each whole and once; after the first failed or short call nothing more is offered and that failure (io.ErrShortWrite for an unreported short write) is returned. All values but four are offered in a single call; group modifications go out as head and buckets, lists of meter bands band by band, and table properties of fields or instructions in several calls. So a destination that takes a call whole or not at all can be left, after every bucket, with a well-formed group modification that lacks the remaining buckets (likewise for meter bands); as the payload of a request every value is sent in one call with the header. A value with an element that cannot be encoded writes nothing.", "quantifier": "every value of every message and part, every destination (a function of all earlier calls)", "why_tests_cant": "needs destinations failing at every call and every byte; tests write into buffers that never fail.", "anchors": ["internal/encoding/encoding.go: WriteTo, WriteSliceTo", "ofp/group.go: GroupMod.WriteTo", "ofp/meter.go: MeterBands.WriteTo", "ofp/table.go: writeTablePropXM, TablePropInstructions.WriteTo", "request.go: Request.WriteTo"]}
{"id": "C102", "title": "Reading takes memory in proportion to what was read", "statement": "Reading any message or message part, from any input and into any value, successfully or not, adds at most 64 list elements or bytes per byte taken from the reader; the exceptions are a version element of a hello, a list of next tables and the table features that contain one, where one list of announced length, at most 65535 elements, may come on top because it is allocated before it is read. The factor 64 is attained by lists of fields in table features, whose values are not sent but are given up to 255 zero bytes per four bytes received. Four bytes suffice for the longest list, which stays in the value; and within table features this is no error: 68 bytes are read without error as a table leading to 65535 tables none of which was sent. A table property read without error on its own holds only what the factor allows.", "quantifier": "every decoder, every earlier value, every input", "why_tests_cant": "needs a bound over all inputs, including hostile lengths at every nesting; tests read a handful of well-formed messages and do not measure.", "anchors": ["ofp/table.go: TablePropNextTables.ReadFrom, TableFeatures.ReadFrom, readTablePropXM", "ofp/handshake.go: HelloElemVersionBitmap.ReadFrom", "ofp/match.go: readAllXM, XM.ReadFrom", "internal/encoding/encoding.go: ScanFrom, ReadFunc, ReadSliceFrom", "ofp/*.go: ReadFrom of all messages"]}
{"id": "C103", "title": "Which truncations of messages of varying size are reported", "statement": "For every match, action list, instruction list, bucket, flow modification, flow removal, flow or aggregate statistics request, flow statistics entry, packet-in and packet-out, and every length to which its encoding is cut, the error of reading the beginning is determined by the layout alone: nil, io.EOF or io.ErrUnexpectedEOF. A cut inside the members of fixed position is always reported. A packet-in is accepted exactly when everything before the frame is there. Other cuts may pass unnoticed: between the members of an action or instruction, or one byte into it, the cut element being kept with zero in every member that did not come whole (an output action cut behind its header is read as output to port 0, a meter as meter 0, a goto-table as table 0, a set-field action cut behind its field header writes zeros without a mask); after any number of instructions; and, when the match needs no padding, between match entries, so that a flow modification is read without error with a wider match and no instructions. Whatever is accepted, the value read is determined: the members of fixed position as sent, the match entries that came whole, the elements and members of actions and instructions that came whole, and as much of the frame as came; nothing of the earlier contents of the receiver, except that a list of instructions read by itself is appended to.", "quantifier": "every well-formed value of eleven kinds, every cut, every earlier contents of the receiver", "why_tests_cant": "the answer depends on the combination of entry sizes, element kinds and cut position at several levels of nesting; tests cut nothing or one byte.", "anchors": ["internal/encoding/encoding.go: ReadFrom, ScanFrom, SkipEOF", "ofp/match.go: Match.ReadFrom, readAllXM, XM.ReadFrom", "ofp/action.go: Actions.ReadFrom, ActionSetField.ReadFrom", "ofp/instruction.go: Instructions.ReadFrom, readInstructionActions", "ofp/flow.go, ofp/packet.go, ofp/group.go, ofp/aggregate.go: ReadFrom"]}
{"id": "C104", "title": "Each awaited reply reaches the callback registered for it", "statement": "Callbacks registered with HandleOnce under matchers made by TransactionMatcher from request headers, by any number of goroutines, while any number of goroutines dispatch messages: if the transaction numbers of the registered matchers are distinct, each callback is given only messages of its own transaction, at most one, and exactly one if and only if some message of that transaction was dispatched while the callback was registered. All other messages of the transaction reach nobody: those before the registration and those after the first. The distinctness is needed and nothing in the library provides it. Two requests with equal numbers (drawn at random, or made from the same header again, which keeps its number) both register; their replies may be swapped, or one dropped while the other callback waits forever. A callback registered after its reply was dispatched never runs.", "quantifier": "every program of every number of goroutines, every interleaving, every order of map iteration, every header and random draw", "why_tests_cant": "the outcome depends on the interleaving of registrations and dispatches and on colliding random numbers; tests register one callback and dispatch one message.", "anchors": ["header.go: TransactionMatcher", "mux.go: ServeMux.HandleOnce, ServeMux.Handler, ServeMux.Serve"]}
{"id": "C105", "title": "Bytes tell messages apart", "statement": "Two well-formed messages of the same kind with the same encoding are the same message, for every kind of message: fixed-size messages (up to texts cut or filled to their field), matches, action and instruction lists, flow, packet, group, meter, queue, error and multipart messages, table features (up to the name cut or filled to 32 bytes), and whole frames (version, type, transaction, body). This holds although reading group, meter and queue messages back loses their lists. Frames, fixed-size messages and all entries that may stand one behind another delimit themselves: no encoding is the beginning of another, so lists of any length are told apart too. Exceptions: two hello elements that differ in an empty last bitmap have the same bytes; match fields whose mask is not as long as the value can share bytes with other fields; a flow modification, packet-in or packet-out followed by other bytes is not told apart.", "quantifier": "every pair of well-formed values of every kind, every pair of continuations, lists of every length", "why_tests_cant": "a collision is a property of all pairs of values; tests encode single values.", "anchors": ["ofp/*.go: WriteTo methods", "header.go: Header.WriteTo", "request.go: Request.WriteTo"]}
{"id": "C106", "title": "Every caller gets the answer to its own request", "statement": "A client makes headers with TransactionMatcher (distinct transactions), registers a one-shot handler for each matcher before it dispatches anything, and writes the requests to a connection. A server without connection limit handles each connection's requests in sequence, among any other connections, with a handler that answers each request with one message under the request's transaction. Both sides receive the bytes in any pieces; the client's goroutines dispatch the replies in any order and interleaving. Once server and client have nothing left to do, each handler was given exactly one message, and it is, in version, type, transaction and body, what the server's handler answered to that handler's own request. More generally a one-shot handler registered before any dispatch, alone in waiting for its transaction, gets exactly one message once some message of that transaction was dispatched.", "quantifier": "every number of requests, every header, draw, body and handler behaviour of the given form, every fragmentation of both streams, every schedule of server and client", "why_tests_cant": "composes framing, server scheduling, buffered writes, matching and disposal over all interleavings on two machines; a test runs one schedule.", "anchors": ["header.go: TransactionMatcher", "request.go: Request.WriteTo, Request.ReadFrom", "server.go: serve, serveReq, response.Write", "mux.go: HandleOnce, Handler, Serve", "net.go: Receive, forceWrite, Flush"]}
{"id": "C107", "title": "Programs that read messages and send them on", "statement": "A program that receives a message, reads its body into a value and sends that value under the received header sends exactly the frame it received, for fixed-size messages, messages with matches, actions, instructions or frames, errors and echoes, whatever the value held before (an instruction list must be new). It does not for group modifications, meter modifications and queue configurations: they leave with the list that was in the value before, that is without buckets, bands or queues if it was new; a received hello leaves with the elements of the value. The sent frame equals the received one only if the lists are equal. The same holds for the entries of group, meter and queue replies. Table features leave as they came except that experimenter properties for table-miss leave as ordinary experimenter properties; only without those is the frame the same.", "quantifier": "every message of every kind, every version, type and transaction, every previous content of the value", "why_tests_cant": "which frames change is a statement about all messages and all previous contents; tests that check what is read do not look at what is sent on.", "anchors": ["ofp/group.go: GroupMod.ReadFrom, WriteTo", "ofp/meter.go: MeterMod.ReadFrom, WriteTo", "ofp/queue.go: QueueGetConfigReply.ReadFrom, WriteTo", "ofp/handshake.go: Hello.ReadFrom, WriteTo", "ofp/table.go: TableFeatures.ReadFrom, WriteTo", "request.go: Request.WriteTo"]}
{"id": "C108", "title": "Handlers of one connection that run at the same time do not damage each other's replies", "statement": "With any way of running handlers, the default goroutine per request included, and any interleaving of the Write calls of running handlers with each other and with the server's own flushes: at every moment before the connection is closed the bytes sent are whole frames, nothing is left unsent and no error is recorded; each frame carries one reply of one handler call (version of its own request when the reply leaves it 0, its own transaction and content); each call's replies are sent in the order it wrote them, and all of them once all calls have returned. When every message was handled and every call returned, the replies sent are exactly those to all messages in some order; and the exchange of C106 still gives every waiting callback the one reply to its own request. The replies of one call need not be contiguous: two calls' replies may be sent in turns.", "quantifier": "every connection limit, runner, schedule, number of connections, every list of replies per request whose contents fit a frame, every interleaving of writes", "why_tests_cant": "a race on a shared buffered connection shows up in few interleavings; the claim is about all of them.", "anchors": ["server.go: response.Write, serve, serveReq", "net.go: forceWrite, Flush", "runner.go: OnDemandRoutineRunner, MultiRoutineRunner"]}
{"id": "C109", "title": "Statistics sent in several parts are put together by transaction", "statement": "A server answers requests with multipart replies: each part a MultipartReply (flag more on all but the last) followed by any number of entries, under the request's transaction. With any runner and any interleaving of the handlers' writes, a client that receives the messages in any pieces, takes those of one transaction (transactions differ) in the order of arrival, and of each reads a MultipartReply and then entries into fresh values until an error, stopping after the first part without the flag, gets exactly the entries of that answer, in order, each part ending with io.EOF, and no message of that transaction is left. This holds for flow statistics as sent, for entries of fixed size and table features up to their text and address fields (C38, C53), and for group statistics and meter configurations with their lists missing (C51). For group descriptions and meter statistics the reading never comes to an end of a part. Without sorting by transaction a client can end up with entries of two answers in one list.", "quantifier": "every list of entries and division into parts that fit a frame, every mixture of answers on the connection, every runner, schedule, interleaving of writes and fragmentation", "why_tests_cant": "combines concurrent writers, framing, and nested decoding until EOF over unbounded lists; tests decode single entries from fixed bytes.", "anchors": ["ofp/multipart.go: MultipartReply", "ofp/flow.go: FlowStats", "ofp/group.go: GroupStats, GroupDescStats", "ofp/meter.go: MeterConfig, MeterStats", "ofp/table.go: TableFeatures", "server.go: response.Write", "runner.go: OnDemandRoutineRunner"]}
{"id": "C110", "title": "Connections of a server do not influence each other", "statement": "A server without a connection limit runs its handlers in sequence or in a goroutine per message. For any execution, any of its connections and any other messages its peer might have sent instead, there is an execution with those messages in which everything seen of every other connection (state callbacks, handler calls with their requests and reply headers, returns, flushes, close) is the same, in the same order, and the other peers send the same. And at any point, although the goroutines of one connection never move again (its handler hangs, say), everything the other peers sent can still be handled to the end: each message exactly once, with sequential handlers in order and followed by the close. With MaxConns set to 1 this fails: while one connection is held, whatever it sends, no message of any other peer is ever handled.", "quantifier": "every number of accept loops, schedule, connection, set of messages, and point in time", "why_tests_cant": "compares pairs of executions under all interleavings (non-interference and progress); a test runs one schedule of one pair of connections.", "anchors": ["server.go: Server.Serve, Server.accept, Server.serve, Server.serveReq", "runner.go: OnDemandRoutineRunner, SequentialRunner"]}
{"id": "C111", "title": "Which truncations of group, meter, queue and hello messages are reported", "statement": "For every well-formed group modification, group description, group statistics entry, meter modification, meter configuration, meter statistics entry, packet queue, queue configuration reply and hello, every length to which its encoding is cut and every value it is read into, the error is determined by the layout alone: nil, io.EOF or io.ErrUnexpectedEOF. A cut in front of the list is always reported, except in group descriptions and meter statistics, where no such cut is ever reported, not even when no byte is there. A cut behind any number of elements is never reported, although the declared length of most of these messages is longer; nor is one between two members of an element. What is read is determined too, with an error or without: the members in front of the list that came whole are those sent, all others and the list are those the receiver had before, so that a cut group description or meter statistics entry is mixed with the previous one and no error tells.", "quantifier": "every well-formed message of the nine kinds with lists of any length, every cut, every receiver", "why_tests_cant": "all cut positions of unboundedly long nested lists; tests read complete messages.", "anchors": ["ofp/group.go: GroupMod, GroupDescStats, GroupStats, Bucket", "ofp/meter.go: MeterMod, MeterConfig, MeterStats, MeterBands", "ofp/queue.go: PacketQueue, QueueGetConfigReply, QueueProps", "ofp/handshake.go: Hello, HelloElems", "internal/encoding/encoding.go: ReadSliceFrom, ScanFrom, SkipEOF"]}
{"id": "C112", "title": "Data of an experimenter action are read as actions", "statement": "OpenFlow divides a list of actions by the length each action declares; an experimenter action may declare more than eight bytes and hold data of its vendor. Reading a list ignores these lengths: whatever the length field of an action other than set field, or of an instruction without actions, says, the result, the error and the byte count are the same. Hence the data of an experimenter action, whatever they are, are read exactly as if they stood behind an experimenter action without data. If they are the encoding of any actions, these become actions of the list, without error, also in a packet-out and in the instructions of a flow modification; if they begin with an unknown type, reading ends with an error and the actions behind are lost; if they begin with type 27 (pop PBB), reading panics.", "quantifier": "every list of actions in front and behind, every vendor and every data (any length, any content), every declared length, every receiver", "why_tests_cant": "the data are arbitrary bytes of arbitrary length; tests only read elements the library itself has written, whose lengths are right.", "anchors": ["ofp/action.go: Actions.ReadFrom, ActionExperimenter.ReadFrom and the other fixed-size actions", "ofp/instruction.go: Instructions.ReadFrom", "ofp/packet.go: PacketOut.ReadFrom", "ofp/flow.go: FlowMod.ReadFrom", "internal/encoding/encoding.go: ScanFrom"]}
{"id": "C113", "title": "Goroutines that read and write messages at the same time do not influence each other through padding", "statement": "Readers store the padding of messages in package-level variables shared by all goroutines and protected by nothing. Nevertheless, whatever other goroutines read or write at the same time and in whatever order the single bytes of padding are stored, a goroutine reading one of the twelve padded messages whose members are all numbers gets the value, the error and the unread bytes it gets when it runs alone; and a goroutine writing such a message sends its encoding with zero padding, never padding that was received. The variables themselves are raced for: they can end up holding parts of two paddings.", "quantifier": "every number of goroutines, every schedule of single-byte stores, every input and receiver, every prior content of the shared variables", "why_tests_cant": "the interference depends on the interleaving of single-byte stores in unsynchronised goroutines; tests run one reader at a time.", "anchors": ["ofp/pad.go: defaultPad1 to defaultPad8", "ofp/switch.go, ofp/handshake.go, ofp/table.go, ofp/port.go, ofp/queue.go, ofp/group.go, ofp/meter.go, ofp/aggregate.go, ofp/multipart.go: ReadFrom and WriteTo of padded messages", "internal/encoding/encoding.go: ReadFrom, WriteTo"]}
{"id": "C114", "title": "A request on which a handler panics ends the service of every connection", "statement": "Nothing in the server, the runners or the multiplexers recovers from a panic. A program with a server behaves, up to the first call of a handler that panics, exactly as if no handler panicked; with that call it is over, for all connections and for good. Without a limit on connections, a server one of whose peers sent such a request never completes its work; and whatever it has done so far, one further peer with one such request ends it without anything more for those connected. Handlers that read the bodies of requests with the library's types never panic as long as no body holds the bytes of the type of a pop PBB action; but a handler that reads flow modifications is ended, together with the whole program, by one 72-byte flow modification with a pop PBB action.", "quantifier": "every number of accept loops and connections, every schedule, every set of requests on which handlers panic, every choice of library types read per message type", "why_tests_cant": "the effect is the end of the process, which a test would share; it depends on the bytes of one peer and concerns what other peers are owed at that moment.", "anchors": ["server.go: Server.serve, Server.serveReq", "runner.go: OnDemandRoutineRunner.Run, SequentialRunner.Run", "ofp/action.go: Actions.ReadFrom", "ofp/flow.go: FlowMod.ReadFrom"]}
{"id": "C115", "title": "Operations on a shared multiplexer happen as if one at a time", "statement": "However many goroutines register handlers and serve requests on one multiplexer, with matchers that only look at the request: without disposable handlers, the results of all operations are those which the same operations, each goroutine's in its own order, have when performed one after the other, and the order is the one in which they end; what is registered afterwards is what that sequence registers. With disposable handlers this still holds as long as no matcher is registered twice, except that a request may be discarded, and then only after another request used up a disposable handler that matched it. It does not hold exactly: a request can be discarded although a permanent handler matches it, and when a matcher is registered again while a request is being served, one disposable registration serves two requests; in neither case does any order of the operations explain the results.", "quantifier": "every number of goroutines, every program of registrations and requests, every interleaving, every order of map iteration, every set of matchers that only look", "why_tests_cant": "linearizability speaks of every interleaving and of the existence of an order of operations; a test sees a few interleavings and cannot show that no order explains a result.", "anchors": ["mux.go: ServeMux.handle, ServeMux.Handler, ServeMux.Serve"]}
{"id": "C116", "title": "Which truncations of table features are reported, and what is read otherwise", "statement": "Reading the first n bytes of encoded table features returns, for every n, exactly the error given by the layout: a cut in front of the properties is always reported as io.EOF or io.ErrUnexpectedEOF, but most cuts behind it are not. Properties lost with the end of the message are never reported. A list of fields (match, wildcards, set-field) may be cut at any byte: the fields that came whole pass for the whole list. A list of instructions or actions may be cut at any even offset, also in the middle of an element, and only odd offsets are reported. Experimenter data may be cut at any byte. A list of next tables cut directly behind its header is read as the right number of entries which are all table 0; cut anywhere else inside it is reported.", "quantifier": "every table features value with any properties, every number of bytes that arrive, every previous contents of the receiver", "why_tests_cant": "the claim is an exact characterisation over all values and all cut positions; a test tries one value and a few positions, and a silently accepted cut produces no failure to notice.", "anchors": ["ofp/table.go: TableFeatures.ReadFrom, readTablePropXM, readTablePropActions, TablePropInstructions.ReadFrom, TablePropNextTables.ReadFrom, TablePropExperimenter.ReadFrom", "internal/encoding/encoding.go: ScanFrom, ReadFunc, SkipEOF"]}
{"id": "C117", "title": "What the declared length of an element governs, and what a length below its minimum does", "statement": "An element that consists of a fixed part and a list or data (bucket, group statistics, group description, meter configuration, meter statistics, packet queue, experimenter queue property, set-field action, apply- and write-actions instruction) is read from exactly the bytes its length field declares: the bytes behind have no influence and are left. A length below the fixed part is never refused: it counts as 65536 bytes more, so the element is read as if it declared everything that follows, and if it is accepted nothing is left for its successors; two buckets can so arrive as one bucket with actions nobody sent. Descriptions of a table and flow entries compute the limit differently: there such a length means an empty list, and the bytes of the list are left to be read as the next element. A property of a table that lists types or fields and declares 0 to 3 takes everything that follows as its list, and its table is accepted unless a list element breaks off; read by itself, declaring 1 to 3 it ends with io.EOF. A hello element declaring less than 4 is reported. A set-field action declaring exactly 4 ends its list of actions: an empty field is delivered and the actions behind are dropped without an error.", "quantifier": "every content of the fixed part, every declared length, every following bytes (up to 4096 where a list is scanned to its end), every receiver", "why_tests_cant": "the wrong lengths never come from the library's own encoders, so round-trip tests do not see them, and the accepted results look like valid values.", "anchors": ["ofp/group.go: Bucket.ReadFrom, GroupStats.ReadFrom, GroupDescStats.ReadFrom", "ofp/meter.go: MeterConfig.ReadFrom, MeterStats.ReadFrom", "ofp/queue.go: PacketQueue.ReadFrom, QueuePropExperimenter.ReadFrom", "ofp/action.go: ActionSetField.ReadFrom, Actions.ReadFrom", "ofp/instruction.go: readInstructionActions", "ofp/table.go: TableFeatures.ReadFrom, readTablePropActions, readTablePropXM", "ofp/flow.go: FlowStats.ReadFrom", "ofp/handshake.go: HelloElemVersionBitmap.ReadFrom"]}
{"id": "C118", "title": "Registrations that are accepted although they cannot work", "statement": "A multiplexer refuses (by panicking, leaving everything as it was) exactly the nil interfaces, matchers that cannot be map keys, and matchers that are registered already. It accepts functions that are nil: HandleFunc refuses a nil function for no reason of its own, and a pointer to a MatcherFunc is accepted whether it is nil or has no function. The fault shows only at a request. With a multiplexer of message types, a request crashes only if a nil function was registered for its type, and does if that is the registration it meets: a server goes on as long as no peer sends a message of such a type, and at any time one new peer with one such message ends the program for all connections. While a matcher without function is registered, a request is served only by another entry that accepts it, never discarded for want of a match; a request that no other entry accepts ends its goroutine with the multiplexer locked, whatever the order of the map, and for the other requests that order decides. A conjunction of matchers with such a member crashes exactly for the requests that all members before it accept.", "quantifier": "all values of the matcher and handler interfaces, all multiplexer contents, goroutine programs, schedules and map orders, all server histories", "why_tests_cant": "Registration succeeds in every test; the crash needs a peer that sends the right message, and with a broken matcher depends on the randomised map order.", "anchors": ["mux.go:16-24", "mux.go:35-47", "mux.go:75-111", "mux.go:114-169", "mux.go:186-188", "mux.go:211-229", "server.go:30-39"]}
{"id": "C119", "title": "What Send without Flush puts on the wire, and what Close loses", "statement": "Over a transport that works every Send succeeds, and how many of the last bytes sent still wait for a Flush is determined by the message sizes: with k bytes waiting a message of n bytes is added if k + n is at most 4096; otherwise the wait is filled up to 4096 and sent, unless it is empty, and the rest of the message waits if it is at most 4096 bytes and is sent otherwise. So messages of up to 4096 bytes in total all wait, never more than 4096 bytes wait, and with 1 to 4095 bytes waiting a message that takes the total above 4096 and not above 8192 is torn: its beginning is on the wire and its end waits. Close does not flush: on a fresh connection the peer receives exactly the messages that lie wholly before the waiting bytes, in order, and then the end of the stream, which is the plain EOF of an orderly close unless 3, 5, 6 or 7 bytes of a torn message arrived; messages of up to 4096 bytes in total are lost without an error on either side.", "quantifier": "all request sequences, message sizes, earlier histories of the connection and fragmentations at the peer", "why_tests_cant": "Tests send one or two small messages and flush; the waiting amount depends on sums of sizes around 4096, and the loss shows only at a peer after Close.", "anchors": ["net.go:122-128", "net.go:150-162", "net.go:178-193", "request.go:132-174"]}
{"id": "C120", "title": "One request value sent by several goroutines at the same time", "statement": "Send changes the header of the request it is given. When several goroutines send one request value made by NewRequest at the same time, to one connection or to several, every message written has the right version, type, transaction and body, and its length field counts the body k times (modulo 65536) for some k from 0 to the number of senders. A call that does not overlap with others writes the right message, and requests without body can be shared. For every other body two senders can both write a length that counts the body twice, and one can write the length of a message without body: the peer of the first takes as many bytes of the following messages for the end of the body, and the peer of the second reads the body as further messages.", "quantifier": "all headers, bodies, numbers of senders, interleavings of the memory accesses, and streams at the peer", "why_tests_cant": "The wrong length needs a particular interleaving of two calls within a few instructions; a test that sends concurrently passes almost always, and the damage appears at the peer.", "anchors": ["request.go:132-174", "request.go:105-116", "net.go:178-187", "header.go:233-235"]}
{"id": "C121", "title": "The named bits mean what an OpenFlow 1.3 peer means by them", "statement": "For every bitmap a peer sends (capabilities, port features, configuration and state, flow, meter and multipart flags, group capabilities, IPv6 extension headers), testing it with a constant of the package tells what an OpenFlow 1.3 peer said, and a bitmap composed of the constants tells such a peer what they are named after, for every constant the protocol has except two: CapabilityIPReasm never shows for an OpenFlow 1.3 switch, CapabilityQueueStats shows exactly when the switch reassembles IP fragments, and a switch built on the package is heard to reassemble fragments when it announces queue statistics and cannot announce the latter. Two programs built on the package agree with each other about every constant. PortConfigNoSTP, PortConfigNoRcvSTP and PortConfigNoFlood are not of OpenFlow 1.3: they add nothing to what such a peer hears and never show in what it sends.", "quantifier": "all bitmaps, sets of properties announced by a peer, lists of constants, and features replies", "why_tests_cant": "A test of the package compares its constants with themselves and both ends agree; the error shows only against other implementations, for every set of capabilities that includes one of the two.", "anchors": ["ofp/switch.go:12-44", "ofp/switch.go:107-111", "ofp/port.go:14-77", "ofp/port.go:124-147", "ofp/port.go:185-198", "ofp/flow.go:36-60", "ofp/meter.go:28-40", "ofp/group.go:355-371", "ofp/match.go:249-282", "ofp/multipart.go:140-151"]}
{"id": "C122", "title": "Elements of the user's own types in a message", "statement": "The lists of actions, instructions, meter bands, queue properties, hello elements and table properties hold interface values, so a program may put in values of its own types. Whatever they write, the length fields around them (instruction, bucket, group description, meter configuration, packet queue, table features, flow statistics, actions of a packet-out) give the true size modulo 65536 and the bytes stand unchanged behind the fixed part; with the package's own elements the message is the one the package writes. If an element fails, or is nil (which panics), the first such one decides the error of the whole message and not a byte reaches the destination, except that a group modification has then already written its fixed part and the buckets before the failing one, and a list of meter bands the bands before it and what the failing one wrote. As the body of a request or of a reply nothing of such a message goes out and the connection stays usable.", "quantifier": "all messages with such lists, elements with any bytes and any errors at any depth, destinations, and lengths", "why_tests_cant": "Tests use the package's own elements, which neither fail nor write unusual sizes; own elements can fail at every position of every nesting.", "anchors": ["ofp/action.go:172-193", "ofp/instruction.go:108-119", "ofp/instruction.go:205-220", "ofp/group.go:96-104", "ofp/group.go:148-160", "ofp/group.go:320-333", "ofp/packet.go:155-167", "ofp/table.go:136-155", "ofp/handshake.go:48-58", "ofp/queue.go:57-68", "ofp/queue.go:113-122", "ofp/queue.go:353-363", "ofp/meter.go:105-118", "ofp/meter.go:277-279", "ofp/meter.go:325-336", "ofp/flow.go:225-231", "ofp/flow.go:462-476", "internal/encoding/encoding.go:120-143", "request.go:132-174", "server.go:58-90"]}
{"id": "C123", "title": "Handlers that send messages of their own", "statement": "A handler gets the connection with the request and may use its Send and Flush besides the Write of its response writer, while other handlers and other goroutines do the same. Over a connection that works and has no write timeout, the stream consists of exactly the frames of the operations that succeeded, each whole, in one order that keeps the order of every handler call; an operation fails exactly when the message cannot be serialized (its error) or a sent request is too long, and then contributes nothing. Everything up to a Flush or a successful Write is on the wire when it returns. Once the server has reported StateIdle as often as it called the handler, each call has done all its operations and everything it sent or wrote is on the wire, even if it never flushed. That does not hold for a goroutine the handler started: its Send can return no error and the message stay in the buffer while the server is at rest.", "quantifier": "all servers (any limit, runner, number of accept loops), schedules, handlers, operations of other goroutines, and interleavings; replies of a size that fits a message", "why_tests_cant": "Whether a sent message leaves depends on which flush of which handler comes later; tests look at one handler that writes one reply.", "anchors": ["server.go:58-90", "server.go:315-343", "net.go:150-187", "request.go:126-128"]}
{"id": "C124", "title": "Handlers that use multiplexers, and multiplexers as handlers", "statement": "A handler may register handlers, dispatch requests and call Handler on any multiplexer while it runs, and a multiplexer may be registered as a handler with another one, to any depth, in any number of goroutines. Each multiplexer then behaves as if it were alone: its entries and outcomes are those of a run of goroutines that perform just the operations performed on it, so every guarantee about one multiplexer holds for each; with matchers that only look, every dispatch at every level chooses among the entries that accept the request at some moment, and discards it only if none does or a disposable one was lost to another dispatch. A goroutine performs its operations in order, behind each dispatch everything the called handler does, before the next. Registrations and uses of disposable entries balance, but more counts as use than expected: asking with Handler uses a disposable entry up without running it; a disposable entry whose handler is a multiplexer is used up by a request that nothing handles there; and a disposable handler that registers itself again misses requests that are dispatched in between. While matchers only look, nested use never blocks: as long as a goroutine has something to do one of them can go on. If multiplexers come in layers, so that handlers dispatch only to lower ones, the number of operations and steps is bounded by what the goroutines set out to do, whatever the schedule, and all of them can finish. A multiplexer whose only entry leads back to it, though, never finishes the dispatch of a request that the entry accepts.", "quantifier": "all programs and handler bodies, matchers, numbers of goroutines and multiplexers, nesting depths, interleavings and orders of map iteration", "why_tests_cant": "Tests dispatch one request on one multiplexer; nesting, handlers that register and concurrent dispatches multiply the interleavings.", "anchors": ["mux.go: ServeMux.Handle, ServeMux.HandleOnce, ServeMux.Handler, ServeMux.Serve, TypeMux"]}
{"id": "C125", "title": "Matchers that use the multiplexer that asks them", "statement": "While a multiplexer asks a matcher it holds its lock for reading, and the lock is one that makes new readers wait as soon as a writer does. A matcher that registers an entry with the multiplexer that asks it, or dispatches a request there that a disposable entry accepts, never returns, and neither does the dispatch that asked it; once it is in Lock, nothing is registered or disposed of any more and no dispatch ends, in any goroutine, except the searches going on at that moment. A matcher that only dispatches there is safe as long as no entry is disposable and nothing is registered meanwhile: every goroutine can always go on; but if another goroutine arrives with a registration between the two dispatches, both hang for ever with the same consequence for all. Matchers that leave the multiplexer alone never cause anybody to hang, and a registration waits only for the searches going on when it arrives, for at most the entries these have left to look at; a steady stream of requests cannot hold it up. With such matchers every run under the lock has the entries and outcomes of a run in which a registration is one step that waits for running searches, so what the other properties say about dispatch, duplicates and disposable entries holds with the real lock. If moreover nothing disposable is registered, the results are those of the operations carried out one at a time, in the order in which they end: a request finds an entry that accepts it and is registered at that moment, and none only if no such entry is. Conversely every such sequence of results occurs in some run, so neither the order of goroutines nor a choice among several accepting entries can be relied on. With disposable entries there is one difference: a request whose disposable entry another request took between its search and its own removal is lost.", "quantifier": "all entries, matchers and what they do on the multiplexer, numbers of goroutines and their operations, schedules and map orders", "why_tests_cant": "The nested dispatch works in every test that does not register at the same moment; a hang has to be shown for all continuations, and so has the absence of one.", "anchors": ["mux.go: ServeMux.handle, ServeMux.Handler"]}
{"id": "C126", "title": "Tracking several flows by cookie", "statement": "For a request received from a connection, a MultiMatcher with one CookieMatcher and otherwise matchers that decide by the header accepts exactly what all of them accept, wherever the CookieMatcher stands; a part before it that rejects keeps the body intact, and a request that no registered matcher touches is dispatched with its body to a matching handler whatever the matchers do to other requests. Users also rely on combining and on registering several CookieMatchers, one per flow. Both fail: a MultiMatcher with two CookieMatchers accepts no received request, not even if both cookies are the one in the message; and in every multiplexer whose entries track cookies, every received request can end at the default handler although its cookie is tracked, as soon as another entry with a different cookie gets to look at it first.", "quantifier": "every combination of parts, every registered set, every received request; existence of a map order for the loss", "why_tests_cant": "the loss depends on the iteration order of the handler map, which a test does not control; the combinations are unbounded.", "anchors": ["cookie.go: CookieMatcher.Match", "mux.go: ServeMux.Handler", "mux.go: MultiMatcher"]}
{"id": "C127", "title": "Every byte string as a flow, packet or flow statistics message", "statement": "What a receiver gets from any bytes at all is determined by the wire format. A byte string decoded as a flow-removed message, a request for flow or aggregate statistics or a packet-in either begins with a complete one and is read as that without an error, or does not and ends in EOF or an unexpected end. Decoded as a flow modification it is read as its forty fixed bytes, its match and its instructions with exactly the report due to the instructions (nothing else can make it fail, panic or loop); only if it ends before the match is complete it has no instructions and ends in EOF or an unexpected end. So is an entry of flow statistics, with the instructions in the length it declares; but if it ends before the match is complete the receiver keeps its previous instructions. Decoded as a packet-out it is read as its sixteen fixed bytes, as many bytes of actions as it declares, with exactly the report due to those, and, if there is nothing to report, everything after them as the packet. The report, and what is read of complete parts, depends on the bytes alone and not on the destination. (A match whose entries end early, at an entry boundary and without padding due, counts as complete. For actions of at most 4096 bytes per list; beyond that what the reader has buffered matters, see C90.)", "quantifier": "every byte string, every previous content", "why_tests_cant": "hostile and truncated inputs are unbounded, and match, instructions and actions are variable-length structures one inside the other.", "anchors": ["ofp/flow.go: FlowMod.ReadFrom, FlowRemoved.ReadFrom", "ofp/packet.go: PacketIn.ReadFrom, PacketOut.ReadFrom", "ofp/match.go: Match.ReadFrom"]}
{"id": "C128", "title": "Every byte string as a meter modification or a meter configuration", "statement": "What a receiver gets from any bytes at all, decoded as a meter modification or as a meter configuration, is determined by the wire format. Each fixed member that is complete is read and each other keeps its previous content; fewer than eight bytes end in EOF where a member ends and in an unexpected end elsewhere. With eight or more, the report is exactly the one due to the bands: complete bands of the three known types (sixteen bytes each, their own length field ignored) are accepted; an unknown type behind them is reported; a band that breaks off is reported as an unexpected end, except that it goes unnoticed where one of its members ends, as does a single byte left over. The decoded value keeps the bands it had before, none of the bands read arrive in it (a finding). A configuration looks for bands only within its length field, counted modulo 65536 so that a length below eight takes everything that follows, and the next configuration begins behind that.", "quantifier": "every byte string, every previous content", "why_tests_cant": "hostile and truncated inputs are unbounded and the number of bands in front of the place where they break off is arbitrary.", "anchors": ["ofp/meter.go: MeterMod.ReadFrom, MeterConfig.ReadFrom, MeterBands.ReadFrom, MeterBandDrop.ReadFrom, MeterBandDSCPRemark.ReadFrom, MeterBandExperimenter.ReadFrom", "internal/encoding/encoding.go: ScanFrom"]}
{"id": "C129", "title": "Every byte string as a hello", "statement": "A peer's first message can be anything. Reading any bytes as a hello ends with exactly the report due to them: complete elements of version bitmaps (a header and the complete bitmaps that the length field, less four and modulo 65536, has room for; one to three bytes beyond those are not skipped) are accepted; an unknown element type behind them is reported; a header that breaks off behind its type, or an element that breaks off within its bitmaps, is an unexpected end; an element that ends right behind its header, and a single byte left over, go unnoticed. Every byte is taken, and the decoded value is what it was before: none of the elements read arrive in it (a finding).", "quantifier": "every byte string, every previous content", "why_tests_cant": "hostile and truncated inputs are unbounded and the number of elements in front of the place where they break off is arbitrary.", "anchors": ["ofp/handshake.go: Hello.ReadFrom, HelloElems.ReadFrom, HelloElemVersionBitmap.ReadFrom", "internal/encoding/encoding.go: ScanFrom"]}
{"id": "C130", "title": "Every byte string as a queue configuration reply or one of its queues", "statement": "What a controller gets from any bytes at all, decoded as one queue of a queue configuration reply, is determined by the wire format. Each of the two numbers in the head that is complete is read and the other keeps its previous content; fewer than sixteen bytes end in EOF where a member ends and in an unexpected end elsewhere. With sixteen or more, the report is exactly the one due to the properties within the length field (less sixteen and modulo 65536, so that a length below sixteen takes what follows): complete properties are accepted (a rate takes sixteen bytes whatever its own length says, an experimenter property as many as its length says); an unknown type behind them is reported; a property that breaks off within its first sixteen bytes is an unexpected end, except that it goes unnoticed where a member ends; experimenter data that break off, and a single byte left over, always go unnoticed. The decoded value keeps the properties it had before, none of those read arrive in it (a finding), and the next queue begins behind the length field. A whole reply of fewer than eight bytes ends in EOF where a member ends and in an unexpected end elsewhere; with more, its report is that of the first queue with something to report, a queue whose head breaks off is an unexpected end unless a member ends there, when it goes unnoticed, and the decoded reply keeps the queues it had before (a finding).", "quantifier": "every byte string, every previous content", "why_tests_cant": "hostile and truncated inputs are unbounded and the number of properties in front of the place where they break off is arbitrary.", "anchors": ["ofp/queue.go: QueueGetConfigReply.ReadFrom, PacketQueue.ReadFrom, QueueProps.ReadFrom, QueuePropMinRate.ReadFrom, QueuePropMaxRate.ReadFrom, QueuePropExperimenter.ReadFrom", "internal/encoding/encoding.go: ScanFrom"]}
{"id": "C131", "title": "Every byte string as a group modification, a group description or a bucket", "statement": "What a receiver gets from any bytes at all, decoded as a bucket, as a group modification or as the description of a group, is determined by the wire format. Sixteen or more bytes are a bucket: its three numbers, the actions within its length field (less sixteen and modulo 65536) as far as they are there, exactly the report due to those actions, and decoding goes on behind the length field; previous content does not matter. Fewer than sixteen end in EOF where a member of the head ends and in an unexpected end elsewhere, with the complete members read and everything else as before. A group modification reads its fixed members in the same way; with eight or more bytes its report is that of the first bucket with something to report, and a bucket whose head breaks off is an unexpected end unless a member ends there, when it goes unnoticed. The description of a group is read like a group modification, with its buckets looked for only within its length field (less eight and modulo 65536), except that fewer than eight bytes are never reported at all (a finding). The decoded value keeps the buckets it had before, none of those read arrive in it (a finding), and a pop PBB action in a bucket makes it panic.", "quantifier": "every byte string, every previous content", "why_tests_cant": "hostile and truncated inputs are unbounded, and the number of buckets and of actions in each is arbitrary.", "anchors": ["ofp/group.go: GroupMod.ReadFrom, GroupDescStats.ReadFrom, Bucket.ReadFrom", "ofp/action.go: Actions.ReadFrom", "internal/encoding/encoding.go: ReadSliceFrom, ReadFunc"]}
