# Formal model of joeholley/experiment24 (Open Match 2 core) in Rocq/Coq 8.16.1

## Layout

    rocq/theories/Model/*.v   executable Gallina model, no proofs of properties; every definition
                              cites the file and lines of /repo it models
    rocq/theories/Spec/*.v    small independent specifications (what the English properties mean)
    rocq/theories/Proofs/*.v  lemmas
    rocq/theories/Props/*.v   the property theorems only: `Theorem Cnn_... : statement. Proof. exact lemma. Qed.`
                              with `Print Assumptions` below, and next to each a concrete `Example`
                              meeting its hypotheses

Theorem names start with the id of the property in properties.jsonl. Suffixes:

* none: the full property is proved of the model;
* `_partial`: only part of the property is proved, the comment says what is missing;
* `_refuted`: the property is FALSE of the code as written; the theorem exhibits a witness.
  A refuted property is listed as `partial` in MANIFEST.json, together with the strongest true
  restriction we proved.

## How the code is modelled

* Go maps / `sync.Map`: std++ `gmap`/`gset`; iteration order is an explicit, universally quantified
  list (any permutation of the contents). Slices are lists; nil pointers are `None`; panics are an
  explicit outcome, not a default value.
* Time: an instant is a `Z` number of nanoseconds since the Unix epoch. Every read of the clock is an
  explicit, universally quantified input. `time.Duration` multiplication wraps at 64 bits.
* Doubles: 64-bit patterns decoded per IEEE-754 to NaN / infinity / exact dyadic integer.
* Strings: Coq `string` = byte sequence, like Go. `strconv.ParseInt`, `strings.Split`, `FormatInt`,
  `regexp` matching of `\d*-\d*` are modelled executably.
* Errors are values. Error texts are not modelled unless a property is about them.
* Goroutines and channels: transition systems whose steps are the individual channel/map operations;
  theorems quantify over all reachable states, i.e. all schedules. Statements that something happens
  eventually (C125, C126) are about infinite executions and take fair scheduling as a hypothesis, written out in
  Spec/FairSpec.v and Spec/FairInvokeSpec.v; nothing is assumed about how long anything takes.
* Redis: a stream of entries with `(ms,seq)` ids, XADD `*`, XTRIM MINID, XREAD COUNT as documented;
  the connection can fail at any point of a pipeline. redigo's pool hands out at most MaxActive
  connections and gets one back only on Close.
* protobuf: wire format encoder/decoder for the messages of messages.proto, map order explicit.

## Properties: plan

| id | modelled | how proved |
|----|----------|------------|
| C01 | filter.In, IEEE doubles | equivalence with a declarative spec, structural induction on filter lists |
| C02 | filter.In time branch | refuted (the code tests `end < t < start`); exact characterisation proved |
| C03 | filter.In bounds switch | refuted for undeclared enum values; proved for declared ones |
| C04 | ValidatePoolFilters, chunk builder | decision rule + invariant of the builder |
| C05 | filter.In with explicit panics; CreateTicket, replication | characterisation of panics, then no-panic for stored tickets |
| C06 | CreateTicket up to Marshal | case analysis against a declarative spec |
| C07 | CreateTicket + expiry | refuted for future creation times; proved when creation time <= id time |
| C08, C09 | getReplId with explicit clock readings | invariant; C09 refuted by a clock stepping back |
| C10 | FormatInt, ParseInt, Split, regexp | decimal round trip by induction |
| C11 | regexp semantics, unanchored search | refuted; exact language proved (contains a dash) |
| C12, C13 | OutgoingReplicationQueue as event machine | invariant by induction over events |
| C14, C15 | redis SendUpdates, reply array, failures | refuted with witness batches; proved for all-valid batches/successful pipelines |
| C16 | redigo pool tokens | refuted: the (MaxActive+1)-th call blocks for ever |
| C17, C18 | XADD/XREAD, encode/decode, replId cursor | round trip; invariant over interleavings |
| C19-C22 | cache update and expiry as lists of atomic map operations | invariants over operation prefixes, permutation-independence |
| C23, C24 | histories with interleaved cycles | abstraction to per-id summary; C24 refuted |
| C25 | replay of suffixes | induction over histories |
| C26, C27 | redis ids in ms vs seconds | refuted for every realistic id |
| C28 | cache | induction over histories |
| C29, C30 | snapshot against a trace of cache states, per-key linearisation points | C29 refuted by race, C30 proved |
| C31-C35 | handlers | list induction; C32, C33 (part), C35 refuted |
| C36, C37 | chunk builder, GetChunkedRequest | loop invariants |
| C38 | wire sizes | refuted with a symbolic family of tickets; a sufficient condition proved |
| C39 | chunk requests | name/extensions proved, pool data refuted |
| C40-C44 | goroutines of InvokeMatchmakingFunctions | transition system invariants; C41-C44 refuted with schedules |
| C45-C47 | WatchAssignments goroutines | transition system invariants; C46, C47 refuted |
| C48-C52 | sample functions | list induction; C49 refuted |
| C53-C55 | example matchmaker | loop invariants; C54, C55 refuted |
| C56-C58 | counters | C56, C58 refuted, C57 proved |
| C59 | proto wire codec | round trip by induction |
| C60 | one-instance system | invariant over all interleavings |
| C61 | many-instance system over one stream | invariant over all interleavings |
| C62-C64 | logging, gateway routes, port selection | case analysis/induction on strings |
| C65, C66 | WatchAssignments with clock and goroutines | invariants; C65 refuted for Redis ids, C66 refuted after a timeout |
| C67 | InvokeMatchmakingFunctions | a decreasing weight: from every reachable state the call can finish |
| C68, C69 | example matchmaker | transition system; HTTP line reader; both refuted, exact behaviour proved |
| C70 | one-instance system | no panic (invariant), progress (decreasing weight), reachability of the active state |
| C71 | many-instance system | as C70 |
| C72, C73 | composition of handlers, system, snapshot, chunking, filters and the functions' receiver | the lemmas of the parts chained over one execution |
| C74 | composition of system and snapshot | refuted by a race, exact exception proved |
| C75-C78 | config.go with viper/cast, start-up, logging settings | induction on strings; refuted claims with the exact readings proved |
| C79, C80 | CreateAssignments to watch answers, one and many instances | histories as in C60/C61; a watch alongside a server keeps "what it holds was asked for" as an invariant; acknowledged calls write nothing later, by counting |
| C81, C82 | activations and deactivations (also of matched tickets), from calls to snapshots and functions | as C79/C80: opposite calls that returned earlier write nothing later; the last state command of the history decides |
| C83, C84 | what CreateTicket returns to its client, in the two system models | one instance: answers carry the ids written; Redis: a second count of everything accepted (in the stream, refused, still to be sent, lost), so that a refused update is not in the stream |
| C85 | `redis_decode`, `redis_get` on arbitrary streams | case analysis on the fields of an entry; the blank ticket applied to a cache |
| C86 | two instances of the Redis system model | both caches are runs over the same updates for the id; a run keeps what no visit finds due |
| C87 | the outgoing queue with its timer | latest answer for a position in the waiting line, per phase of the loop; refinement to the loop of C12 |
| C88 | the incoming queue with its timers | latest start of the next expiration cycle, per phase; counting arrivals; a run in which updates keep coming |
| C89 | `mmf_target`, `dial` | the scheme found in a target is the whole host or none; character classes by cases |
| C90-C92 | `run_sample` on `build_requests`/`get_chunked_request` | C36 and C72/C73 composed with C48-C51; the tickets of a run are prefixes of the pools' lists; counting |
| C93 | `match_id`, `stamp` | the last dash separates the number; the prefix determines time and function |
| C94 | `id_time`, `id_time0` | numerals as an inductive relation; the two digit loops by induction on it |
| C95-C97 | Metrics: HandleRPC, filepath.Base, the per-call histograms, the cycle duration | induction over the reports; arithmetic of the divisions; C96, C97 refuted |
| C98 | the gateway's JSON stream and Fscanf | induction over the stream with fuel independence; compaction and space-freeness of printing by nested induction; refuted |
| C99 | composition of C72/C73 with C90/C91 | every mock ticket is eligible for exactly one pool, for all states reachable in both systems |
| C100 | the sample functions on the example's profile | refuted with 300 players; exact for battleroyale, sufficient conditions for the others |
| C101 | the example's decisions | induction over the matches; refuted for the rate |
| C102 | failed creations | refuted; composition with C31 |
| C103 | target of calls | refuted; exact characterisation |
| C104 | durations from settings in 64 bits | refuted; exact range |
| C105 | the wait as Redis reads it | refuted; exact |
| C106 | time.ParseDuration, redigo's time limits | digit-by-digit reading; refuted for polls, exact |
| C107 | net's parsePort and grpc-go's target of the gateway | refuted (0, wrap-around); exact otherwise |
| C108 | Redis addresses | refuted (IPv6); host names in full |
| C109 | accepted texts are exactly UTF-8; received tickets are storable | proved |
| C110 | requests, chunks and matches survive the wire | proved |
| C111 | what om-core could read it can send on | proved |
| C112 | who hears about deactivated tickets when the caller hangs up | refuted, exact relation to runs without hang-up |
| C113 | a function decodes exactly the eligible tickets from the bytes sent | refuted (4 MiB), exact outcome |
| C114 | all functions of a request are invoked | refuted (type left out), exact condition |
| C115 | damaged values of the stream | refuted; what is stored for sound values and for values damaged behind whole fields |
| C116 | the cache forgets everything in time | refuted (ids with numbers in the future); issued ids are forgotten; how long the others stay |
| C117 | no ticket is in two matches of one invocation | refuted (nothing compares the matches); any matches are passed on; none twice |
| C118 | requests as JSON | per-field read-back lemmas over a relation between fields and members; inversion of the reader; refuted, exact |
| C119 | HTTP callers of the streams | induction over the messages; refuted, exact prefix |
| C120 | a ticket handed out in a match is not offered again | composition of Invoke with System and RedisSystem, projections and C40, C81, C82; refuted, strongest restriction |
| C121 | failed deactivations are logged with their reason and without a data race | executions as traces, happens-before as a transitive closure, closed sets of positions; refuted, exact condition |
| C122 | accepted tickets reach functions, their matches reach om-core | lower and upper bounds on encoded sizes; symbolic large tickets; refuted twice, exact outcome, sizes that are safe |
| C123 | tickets of a rejected match that are activated again are offered again | composition of InvokeSystem with C85/C86 (ticket state); refuted by a run, holds if the functions ended normally |
| C124 | failed calls of the example matchmaker are noticed and repeated | exact log lines of both modes; refuted twice; one attempt per queued id |
| C125 | calls return and activated tickets become active in every fair execution | infinite executions over System and RedisSystem, strong fairness per kind of step, leads-to by well-founded induction; fair executions exist |
| C126 | invocations end and matched tickets are retired in every fair execution | infinite executions over InvokeSystem with both stores, fairness per goroutine of the invocation and of the server; leads-to; fair executions exist |
| C127 | at most a thousand time series whatever clients send | Series: error texts of all handlers, attribute sets kept; refuted by three families of calls, no other sources, bound without them |
| C128 | a server that can not serve ends and says why | Startup: start and its two goroutines with the shared err; invariant by induction; refuted twice, exact characterisation of what goes on |
| C129 | work for a caller that has gone is not done | Gone: any of the transition systems with a set of callers that have gone; projection; liveness from C125; exact condition for a watch to end by itself |
| C130 | waiting for goroutines never panics | WaitGroup: sync.WaitGroup step by step; one invariant for both ways of use; refinement of the Matchmaker model; exact condition for a panic |
| C131 | every watch ends, and an assignment made for a watched ticket reaches its watcher | infinite executions over WatchSystem with both stores, fairness per goroutine of the watch and of the server; leads-to; fair executions exist |
| C132 | session guarantees: monotonic writes, read your writes, monotonic reads, writes follow reads | positions in the common history (RedisSystem, System); what is applied is a prefix; witnesses for each guarantee that fails |
| C133 | stopping, killing and replacing instances | Shutdown: RedisSystem with instances that stop serving and end; erasure to RedisSystem; a returned call never changes; witnesses for what is lost |
| C134 | om-core and a function on their stream | Converse: two processes with bounded buffers; exact condition for ending (progress lemma + a scheduler), termination by weight; refuted for functions that answer while reading or read to the end |
| C135 | debug pages | DebugMux: http.ServeMux of Go 1.21 with path cleaning; canonical paths as fixed points; exact set of requests that get a page; refuted: port 2223 serves pprof to everybody |
| C136 | scrapes of the cache gauges | Scrape: three writes against four reads; position of the writer as the only index; exact set of possible reports (both directions) |
| C137 | JSON texts | JsonText: recursive descent with fuel against the grammar of RFC 8259 as a relation (both directions, fuel shown to be enough); what the gateway writes is in the grammar with the value it was written for; refuted: the gateway does not look behind the value |
| C138 | JSON as bytes | JsonBytes: UTF-8 as a relation on code points and bytes (Unicode, table 3-6) against the decoder of the model, both directions; messages of JsonMsg to trees of JsonText to bytes and back; acceptance characterised exactly; the example's stream with C98's condition on spaces |
| C139 | a cycle of the example | ExampleCycle: the call of InvokeMatchmakingFunctions over gRPC and HTTP, the gateway's error lines and statuses as bytes; refuted (nil response, errors counted as matches, shadowed err), with an exact outcome relation |
| C140 | the run of the mock frontend | MockRun: generator, players, channel and activator as a transition system with time; counts, rate, each id once, no standstill, fair executions; the rate of creation refuted |
| C141 | times in JSON | Calendar: Go's absDate and Date, protojson's writing and reading of Timestamps; calendar = counting days, writing and reading exact against a grammar; the premises about times of C123 and C138 hold |
| C142 | stamps in ids of matches | refuted where clocks are put back; exact condition (the local clock), hence proved in fixed zones |
| C143 | whole numbers in JSON | JsonNumber: protojson's number tokens and Token.Int(32); exact against a grammar of RFC 8259, for bare and quoted numbers |
| C144 | doubles in JSON | rounding = nearest, ties to even (midpoints between neighbours); 17 digits suffice; shortest and nearest digits; round trip; the premises of C118, C119, C138, C139 about the library hold for `go_codec` |
| C145 | statuses of failed calls | StatusWire: grpc-message escapes, base64 of grpc-status-details-bin, google.rpc.Status; round trips; JSON body by the grammar of C137 |
| C146 | the metrics pages | MetricsPage: OpenTelemetry's histograms and sums, the names and labels of the Prometheus exporter, the text format; the page read back by a grammar, every number against what was recorded; doubles by C144 |
| C147 | reaching a function | Connect: the deadline of the connection, Go's dialling of several addresses, the waiting call; induction over the addresses with a lower bound on each share; refuted by two and three addresses |
| C148 | the last line of the log | FinalLog: the counts from the five reads of the cache; sizes of finite sets; the text is injective |
| C149 | the log of an invocation | InvokeLog: the entries up to the calls of functions with logrus' levels; each text is cut back into its numbers; refuted by an invalid pool and by an unknown inactive id |
| C150 | the log of a function's call | FnLog: the entries of the function's goroutine for each way its call can end; injectivity of texts with padded and rounded numbers; refuted by a function that is not reached, a broken stream and a REST function |
| C151 | the time an invocation takes | CallTime: times of connecting (Connect), of the function's stream, of its matches, and the goroutine that sends them one at a time in any order without idling; bounds by induction over that order; refuted by a match just before the limit and by a slow caller |
| C152 | when updates are in the cache | Visible: memory GetUpdates and the goroutine that calls it, with timers, joined to the timed loop of Timing; invariant: a deadline for each position in the line, as a function of the loop's phase; refuted (and exactly bounded) by the schedule in which both timers fire just before the update |
| C153 | when updates are in the cache, with Redis | RedisVisible: XREAD with BLOCK and COUNT, network times as parameters, joined to the timed loop of Timing; deadline invariant as for C152 |
| C154 | from a request to the cache (in-memory) | Arrival: the timed loops of C87 and C152 joined by the unbuffered channel between SendUpdates and GetUpdates; projections onto both, so their bounds add up; how long SendUpdates takes is derived, not assumed; explicit runs for exactness |
| C155 | from a request to the cache of each instance (Redis) | RedisArrival: the timed loops of C87 and C153 joined by the entries SendUpdates adds; projections onto both |
| C156 | what clients see of an update, and from when | the caches of the timed loops are those of histories (C20 to C25), with C154 and C155 |
| C157 | no deadlock, time passes | from every reachable state of the timed models a continuation without new requests, by taking the steps that need no time and then one nanosecond; with the limits of C87, C153 and C152 everything is done on it |
| C158 | field names of JSON bodies | a relation of trees that differ in the names of fields (spec: camel case to snake case, shapes of messages); readers cannot tell them apart |
| C159 | order of members, unknown members | the same with permutations and foreign members; the fields of each message are set independently (commuting steps) |
| C160 | order of fields, unknown fields in protobuf | a relation on byte strings (Spec/WireLikeSpec.v) by the numbers and kinds of the fields of each message; each decoder commutes on different numbers, skips unknown ones, and decodes related submessages alike |
| C161 | which bytes are protobuf messages | the wire format as an inductive grammar (Spec/WireGrammarSpec.v); soundness and completeness of each decoder of Wire by induction on bytes |

## Code modelled

| model file | code | simplifications |
|---|---|---|
| GoStrings, ParseBase0, Logging.lower | Go's strconv.FormatInt, ParseInt/Atoi (base 10 and 0), strings.Split, ToLower, the regexp `\d*-\d*` | ToLower only up to comparison with ASCII words |
| Types | messages.proto, store.go, timestamps, IEEE doubles | instants are unbounded integers; reserved/deprecated fields left out |
| Filter | core/internal/filter/filter.go:34-137 (all) | error texts reduced to which timestamp was bad |
| Wire, Proto | protobuf runtime v1.33.0 for the messages used, including what is left behind when an error is ignored | groups are errors, unknown fields are dropped |
| MemRepl | core/internal/statestore/memory/main.go (all) | the counter does not wrap at 2^63 |
| RedisRepl, RedisReader | core/internal/statestore/redis/redis.go (all), redigo's pool, Redis streams | one stream key nobody else writes; dialing and AUTH left out; the trace logging of replies left out |
| Queues, Cache, Replica | core/internal/statestore/cache/replicatedticketcache.go:46-348, cache/metrics.go:48-107 | select/timer choices are free (any interleaving of updates and cycles); histogram metrics left out |
| Handlers | core/main.go:144-353, :733-795, :876-924 | the error details keep fields, not their texts |
| Snapshot | core/main.go:391, :932-959 | sync.Map.Range reads every key at any point of the call |
| Chunk | core/main.go:399-472, mmf/server/server.go:70-112 | none known |
| Invoke | core/main.go:366-374, :474-724 | no clock; sending chunks always returns; a function may do anything |
| Watch | core/main.go:805-872 | stream.Send always returns; wall and monotonic clock are the same |
| Mmf | functions/golang/{soloduel,battleroyale,teamshooter} | extensions of matches and rosters are in MatchWire |
| Samples | the same with GetChunkedRequest and the clock | the layout of a formatted time is an unknown function of the hundredth of a second |
| Matchmaker | matchmaker-example/main.go:187-481 | protojson.Unmarshal is a parameter; calls to om-core, flags and sleeps left out |
| Port | mmf/main.go:39-58 | none |
| Gateway | core/pkg/api/v2/api.pb.gw.go with grpc-gateway v2.19.0's mux | request bodies and response encoding left out |
| Settings | core/internal/config/config.go, core/main.go:98-122, logging.go:29-71 | settings not used by the models left out (Redis addresses, OTEL, K_*) |
| System | all goroutines of one instance with the in-memory store | the poller's and queue's timers may fire at any time |
| RedisSystem | any number of instances with Redis | as System; pool exhaustion (C16) and XREAD COUNT 0 are treated only in RedisRepl/Settings |
| Timing | replicatedticketcache.go:74-127, :134-348 with sleeps and timers | one clock; a ready goroutine runs at once (delays count as work); waiting senders are served in order, as Go's channels do |
| Dial | core/main.go:528-531, :547 and what grpc-go v1.62.1, net/url and net make of the target | targets without path, query, fragment and escapes; proxies left out |
| Metrics | core/server.go:81-143, core/main.go:316, :350, :792, replicatedticketcache.go:345 | durations in whole microseconds instead of float64 milliseconds |
| HttpStream | matchmaker-example/main.go:285-313, grpc-gateway's ForwardResponseStream, protojson's one-line form, encoding/json's compaction, fmt.Fscanf | JSON values as trees over code points; the slice bounds are counted in code points, not bytes |
| JsonMsg | protobuf's encoding/protojson for the API messages; the gateway's Decode and ForwardResponseStream; core/pkg/api/v2/api.pb.gw.go:35-185 | JSON as trees with UTF-8 texts (syntax: HttpStream for writing, JsonText for reading, bytes: JsonBytes); numbers, times and the registry of types are parameters |
| MockFrontend | matchmaker-example/main.go:79-225, :241-257, :325-369, :484-500, :525-693 | random draws and the double float64(t) are arguments; of a CreateTicket call only the id in the reply is seen |
| NetSettings | replicatedticketcache.go:91, :160, memory/main.go:54, core/main.go:507, :562, redis.go:40-92, :247, core/server.go:39-75, and Go's time.ParseDuration, net.SplitHostPort, net's parsePort | fractions in durations are a parameter; no service names for ports; redigo's time limits as bounds on connecting and replying |
| ProtoMsg | proto/v2/messages.proto:89-228 (MmfRequest, ChunkedMmfRunRequest, StreamedMmfResponse) as written and read by protobuf v1.33.0 and grpc v1.62.1 | writing is a relation (any order of the maps); messages in lists and maps are never nil; no recursion limit |
| Hangup | core/main.go:493, :562 (the caller of an invocation goes away) | a match sent while the caller is there is delivered |
| FnWire | mmf/server/server.go:60-112 on bytes; grpc v1.62.1's limit for received messages | not compressed, in order, none missing (C92: stops early) |
| FnSpec | core/main.go:513-547 (type and address of a function) | |
| WatchSystem | a watch (Watch) alongside a server (System or RedisSystem) | one watch at a time; it may find any part of the assignments of the moment, which covers cycles that delete one by one |
| InvokeSystem | an invocation (Invoke) alongside a server (System or RedisSystem); core/main.go:230-284 as called at :639 | one invocation at a time (others are steps of the server); the call begins when the match is received, its answers are seen together |
| Race | the variable err of a function goroutine and its match goroutines, core/main.go:521-714 | only actions that use the variable or order the goroutines; orders that gRPC or the logging library might add are left out |
| MatchWire | extensions of the sample functions' matches, and om-core's Recv on bytes, core/main.go:590-603 | the function closes its stream after its last match; what happens to received matches is Invoke |
| ExampleCalls | the example matchmaker's calls of ActivateTickets and CreateTicket with what it logs, matchmaker-example/main.go:418-474, :483-512, :635-693 | JSON as trees; log entries without fields; debug entries left out |
| Series | core/server.go:128-140, core/main.go:152, :193-196, :292-301, :328-336, :369-374, :700, :740-748, core/metrics.go:92-170 | texts of store and marshalling errors are parameters; what the SDK keeps is one entry per attribute set, for ever; texts for damaged messages left out |
| Startup | core/server.go:28-77 | failures and signals come from outside; assignments to the shared err are atomic; the message of a failed net.Listen is reduced to its error |
| Gone | main.go:205-221, :256-275, :755-780, :805-872; replicatedticketcache.go:38-45 | callers may go away at any time; around Model/System.v and Model/Watch.v |
| WaitGroup | matchmaker-example/main.go:385-481; main.go:484, :517-522, :720; :584, :625-627, :703; sync/waitgroup.go of Go 1.21 | one atomic operation per step; load and CompareAndSwap of Wait are one step |
| Shutdown | core/server.go:31-37, :74-76; core/main.go:89-91, :106-135; grpc v1.62.1 Server.Stop | around Model/RedisSystem.v; closing all connections is one step, after which no client of the instance gets an answer; a process ends in one step |
| Details | core/main.go:272-283, :895-924; status.WithDetails of grpc v1.62.1 | error details of state updates with their texts; proto.Marshal fails iff a text is not UTF-8, WithDetails then returns nil, which is the status OK |
| Converse | core/main.go:562-603; mmf/server/server.go:70-112 | om-core's sends and receives against any list of reads and sends of a function; each direction holds a number of messages; no deadline, no failures |
| DebugMux | core/main.go:81-84; core/metrics.go:84-93; core/server.go:57-71; net/http of Go 1.21 | listeners and http.DefaultServeMux; what /metrics contains is in MetricsPage; hosts in patterns and the moment before /metrics is registered are left out |
| Scrape | cache/replicatedticketcache.go:341-343; cache/metrics.go:94-106 | the tallies are any numbers (Cache.v has what they are); sequentially consistent memory; scrapes do not overlap (lock in the SDK) |
| JsonText | protobuf's internal/encoding/json (decode.go, decode_string.go, decode_number.go) as used by matchmaker-example/main.go:314 and the gateway; encoding/json's Decoder before it (core/pkg/api/v2/api.pb.gw.go:35-185) | texts as code points; an exponent without digits is refused at once; no limit of nesting |
| JsonBytes | the same, from bytes to messages: utf8.DecodeRune and utf8.AppendRune; core/pkg/api/v2/api.pb.gw.go:35-185, matchmaker-example/main.go:285-318 | encoding/json's reader and protojson's are one; numbers, times and the registry of types are parameters |
| ExampleCycle | matchmaker-example/main.go:224-344; grpc-gateway's ForwardResponseStream, handleForwardResponseStreamError, HTTPStatusFromCode | the request can always be written; a failed Unmarshal leaves an empty message; info and debug entries left out |
| MockRun | matchmaker-example/main.go:589-625 (Run), with activateTickets and the players | sleeps exact, all other durations arbitrary; CreateTicket may answer anything at any time; log entries left out |
| Calendar | soloduel.go:81, battleroyale.go:79, teamshooter.go:115 (Format), times over HTTP (server.go:53-62) | Go 1.21 time package and protojson 1.33 from their sources as known, not on the box; the general parser only; a zone is a function from the time to its offset |
| JsonNumber | numbers over HTTP: core/main.go:388-420, server.go:53-62, matchmaker-example/main.go:260-265 | protobuf 1.33 (decode_number.go, decode.go, encode.go) from its sources as known, not on the box; strconv.ParseFloat and AppendFloat(-1) by what they compute |
| StatusWire | core/main.go:895-924 and the statuses of core/main.go; grpc-go's WriteStatus, encodeGrpcMessage, operateHeaders, NewWithProto; grpc-gateway's DefaultHTTPErrorHandler | grpc-go 1.62.1 and grpc-gateway 2.19.0 from their sources as known; padded base64 is an error; no limit on the size of headers; BadRequest is the only type of details |
| MetricsPage | core/metrics.go:39-170; core/internal/statestore/cache/metrics.go:41-107; matchmaker-example/metrics.go:15-94; the OpenTelemetry SDK 1.24.0, its Prometheus exporter 0.46.0, client_golang 1.19.0 and prometheus/common 0.48.0 from their sources as known | only the families of the two programs; families and series are not sorted; sums of int64 do not wrap; no compression, no OpenMetrics format; durations are not negative |
| Connect | core/main.go:505-511, :545-568; grpc-go 1.62.1 (resetTransport, createTransport) and net of Go 1.21 (dialParallel, dialSerial, partialDeadline) from their sources as known | a listener that does not speak HTTP/2 is a silent address; events at the very instant of a deadline in a fixed order; proxies left out |
| FinalLog | core/main.go:133, :932-959 | one Range sees one state; the dumps of OM_VERBOSE left out |
| InvokeLog | core/main.go:376-443 (the log entries), internal/filter/filter.go:34-49 (the texts) | one Range sees one state; entries are level, profile_name and text |
| FnLog | core/main.go:520-714 (the log entries of the function's goroutine; strconv's rounding for %0.2f) | entries are level, fields mmf_name and mmf_addr, text; lines of match goroutines left out |
| CallTime | core/main.go:480-500, :513-723 (when goroutines of an invocation end) | computing takes no time; the check takes 100 ms; REST functions, matches without tickets and sends on the closed channel left out (C42, Invoke) |
| Visible | core/internal/statestore/memory/main.go:48-70, core/internal/statestore/cache/replicatedticketcache.go:144-155 | steps of the reading goroutine take no time; longest times of applying an update and of an expiration cycle are parameters |
| RedisVisible | core/internal/statestore/redis/redis.go:232-309, core/internal/statestore/cache/replicatedticketcache.go:144-155 (times) | one longest time for an answer of Redis and for reading it; trimming left out; the bound is for updates with fewer than OM_CACHE_IN_MAX_UPDATES_PER_POLL others ahead, and a longer one for all |
| Arrival | core/internal/statestore/cache/replicatedticketcache.go:74-127, core/internal/statestore/memory/main.go:32,75-94 (times) | SendUpdates' own work and handing out the results take no time; one instance |
| RedisArrival | core/internal/statestore/cache/replicatedticketcache.go:74-127, core/internal/statestore/redis/redis.go:101-225 (times) | the longest time of SendUpdates is a parameter; writer and reader use one clock; other instances only as further entries |

## Not modelled

* gRPC transport, TLS, keep-alives: only the start of the servers, the routing table, statuses and their trailers,
  and the text of the metrics page (not the metrics of the Go runtime, otel_scope_info, target_info on it).
* Generated protobuf getters/builders beyond their nil-safety.
* Dockerfiles, deployment files, tests.
* Physical limits: memory, channel sizes too big to allocate, 64-bit wrap of counters, more than 2^31 chunks
  (the theorems about chunks assume `CountFits`).

## Findings (claims that are false of the code, each with a machine-checked witness)

C02 inverted time filter. C03 undeclared bounds admit everything. C07/C24 future creation times never
expire, replicas diverge. C09 ids repeat when the clock steps back. C11/C32 unanchored id regexp, ids
silently dropped. C14/C15/C61 wrong or empty ids after an invalid update or a broken connection. C16
connections are never returned to the pool. C26/C27/C65 milliseconds against seconds: nothing with a
Redis id ever expires, is trimmed, or times out in time. C29/C74 a fresh ticket can be offered before
it is activated. C33 error details collapse; a failure with a text that is not UTF-8 (Redis cuts command arguments it quotes after 128 bytes) is reported as success. C35/C44 errors are dropped. C38 chunks can exceed 4 MiB.
C39 pools arrive without their filters. C41-C43 matches lost, crashes on empty matches and on late
failures, the deactivation wait does not wait. C46/C47/C66 watch crash, gauge drift and leak after a
timeout. C49 a ticket matched against itself. C54 one empty cycle too many. C55 requeueing can block for ever. C56/C58
counters off. C64 ports wrap. C68 activateTickets returns early. C69 gateway errors counted as matches.
C75-C78 settings silently become 0, octal, or crash the start. C84 a created ticket's id is not always
told. C85 foreign or short stream entries become blank tickets or crash every reader. C88 the 500 ms limit on
applying updates never takes effect, so expiration can be put off for ever. C89 functions on hosts named like a URL scheme
("unix", "dns") or with plain IPv6 addresses are not found. C91 a player who fits several roles is used several times in one
run. C93 match ids repeat within a hundredth of a second. C94 watches read ids with a leading zero as octal.
C96 failed updates are counted as done. C97 the cycle duration loses its microseconds.
C98 the example stops at the first match with a space in one of its strings. C100 battleroyale never makes
a match in the example. C101 the example rejects two matches in a hundred. C102 empty ids are queued for activation.
C103 -omhost is ignored unless -conn is grpc. C104-C108 a time limit with a unit leaves functions no time; Redis refuses
waits not in plain decimal; an idle timeout of 60 means 60 ns and is also the limit for connecting and replies; with PORT=0
the gateway finds no server; plain IPv6 addresses of Redis are not dialled. C112 tickets of matches
are deactivated even if the matchmaker has hung up and will not see them. C113 many small tickets: functions get an error. C114
a function without a type in the request is silently not invoked. C115 damaged tickets are stored with the fields before
the damage. C116 clients can fill the inactive set and the assignments with ids that never expire.
C117 two functions of one call can use the same ticket; both matches reach the caller.
C118 a ticket, profile or roster with an extension of a type that om-core was not linked with cannot be sent
over HTTP, although messages.proto says extensions are simply passed through.
C119 one such extension in a match ends an HTTP caller's stream; later matches are lost to
the caller although their tickets were already deactivated.
C120 a ticket of a match that was sent on is offered again until the deactivation is applied, and with Redis
for good if the deactivation is refused;
C121 a failed deactivation is logged with the wrong variable, which another goroutine is assigning to.
C122 a ticket just under 4 MiB is accepted, and then keeps every ticket from the functions of all profiles it is
eligible for until it expires; a match whose tickets together are over 4 MiB ends the function's stream at om-core.
C123 if a function returned two matches with one ticket and failed, the second match's deactivation can be stored after
the caller rejected the first and activated the ticket again: it stays inactive, and the second match never arrives.
C124 over HTTP the example matchmaker never logs "ActivateTickets failed" (the error is in a shadowing variable),
ignores the HTTP status, and never repeats a failed activation in either mode.
C127 every number of ids over the limit, every length of an oversized message and every function name makes a time
series of its own that is kept for ever. C128 a failure of the gRPC server while the gateway is being registered can
get lost in a shared variable: the process goes on without it. A signal during the failure of
the HTTP server makes the process end with status 1 and the message "<nil>". C129 the context that is put into every update "so this
request can be cancelled" is never looked at: calls given up by their callers are carried out, and a watch whose caller
has gone goes on to its end (for Redis ids practically for ever, C65). C130 the example calls activationWg.Add inside
the started goroutine: with more than 500 ids a late Add can panic, or make Wait panic, and end the process.
C132 a client that activates its ticket, is told OK and then asks for matches may not be offered it; and with a broken
Redis connection "deactivate" then "activate", both answered with OK, can be stored in the other order. C133 a
stop does not wait for the calls in flight: a client gets an error for a ticket that exists. With the in-memory store,
a restart loses everything, and within the same second issues the same ids again. C134 om-core sends the whole request
before it receives and never closes its direction: a function that answers while reading, or reads to the end of the
stream, blocks with om-core until OM_MMF_TIMEOUT_SECS. C135 the metrics port 2223, open to all, also serves the
profiling pages that main puts at localhost:2224. C136 a scrape can mix the numbers of two cycles and report a negative
number of active tickets (unsynchronised global variables). C137 the gateway takes the first JSON value of a body and
ignores the rest, be it another request or garbage. C139 the example panics if its HTTP call of
InvokeMatchmakingFunctions gets no answer, counts an error line without spaces as a match, ends at one with spaces, and never
names an error in the line about the cycle. C140 the mock frontend limits the rate at which it starts goroutines, not the
rate at which they create tickets. C141 the gateway takes times with any two digits for hours and minutes of the zone,
such as -99:99. C142 the ids of matches hold local time without a zone: where clocks are put back, ids can come
twice. C143 a port in quotes may be followed by anything that does not go on the word ("8080,x", "80:81", "1e,");
0.000000000000000000001e21 is refused although it is 1. C146 the three histograms of what an expiration cycle removes,
and the example's counters of created and assigned tickets, are registered but never recorded; the help text of the
watch gauge is that of the assignments, and its name is misspelt (assigment). C147 a function with several addresses, one of which is dead, can cost the
larger part of OM_MMF_TIMEOUT_SECS (250 of the default 500 seconds with two addresses) before the next one is tried, and with less
than two seconds per address it may not be reached at all. C148 the tickets in the last line of the log are not the
active and the inactive ones. C149 the log line about an invalid pool does not name it and has a stray %w (Error called
with a format); its number of inactive tickets without assignment includes ids without tickets. C150 a function that is not reached
leaves no line but "connected to MMF" in the log; the reason why a function's stream broke is not logged. C151 an invocation can take longer
than the limit of the functions, without bound if the caller takes matches slowly; one dead address holds all of it for the limit (500 s). C152 an update can take twice OM_CACHE_IN_WAIT_TIMEOUT_MS
(three seconds by default) to reach the cache; om-core looks after 100 ms. C154 counted from the request it is up to 3.5 seconds by default (2 with Redis, C155);
with the channel full the in-memory store answers a request only when the cache takes updates again.

Also seen, not stated as properties: the comment on OM_MATCH_TICKET_DEACTIVATION_WAIT describes the
two values the wrong way round; the metrics TicketSize and MmfTicketDeactivations are never recorded;
filter_test.go's TestMeetsCriteria reports an error when an included case IS included (the test of
inclusion is inverted), and its first excluded case panics in filter.In (C05).

## Testing the theorems

tools/ has the scripts for notes and MANIFEST.json. seeded/LOG.jsonl has one line per
wrong program tried: a definition of the model was edited in a scratch copy, everything rebuilt with
failing lemmas temporarily admitted there, and the theorems that then fail or depend on a failed lemma listed
(for the later entries only up to the first lemmas that fail; the theorems that use them, by the .glob files).

Props/TestCases.v runs the repository's own test tables (filter/testcases, TestValidPoolFilter,
logging_test.go) on the model. The model agrees with every case except those that C02 and C05 are
about: four creation-time cases listed as included are excluded, two cases with a nil ticket panic.

## Trusted base

* Coq's kernel 8.16.1 (all proofs end in Qed; no `native_compute`; `vm_compute` is used in examples and witnesses,
  so its virtual machine is trusted as part of the kernel).
* `Print Assumptions` is run below every theorem in Props/*.v; every one prints "Closed under the global
  context": no axioms, neither our own nor of a library. (The gate's list of library axioms, Coq.ssr.ssrunder.Under_rel.*,
  are the parameters of a module type of the standard library's ssreflect plugin that std++ loads; no
  theorem depends on them.)
* std++ is used as a library of definitions and proved lemmas; nothing in it is assumed.
* The faithfulness of the model to the cited code and to the behaviour of Go, protobuf, redigo, Redis,
  viper and grpc-gateway listed above, which was obtained by reading only (the code is not run).
