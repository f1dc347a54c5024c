{"id": "C01", "title": "A pool is the intersection of its attribute filters", "statement": "For a pool without a creation-time filter and a ticket that has attributes, the ticket is placed in the pool if and only if every double-range filter finds its argument on the ticket with a value inside the filter's interval (open or closed at each end as its bounds say, NaN never inside, infinities ordered as usual), every string filter finds its argument with exactly the given value, and every tag filter's tag is among the ticket's tags.", "quantifier": "every pool with known bounds values, every ticket with attributes, every IEEE-754 double bit pattern", "why_tests_cant": "the domain (all doubles including NaN/infinities/subnormals, all filter lists, all maps) is unbounded; the shipped tests even assert the wrong polarity for inclusion", "anchors": ["core/internal/filter/filter.go:In", "proto/v2/messages.proto:Pool"]}
{"id": "C02", "title": "The creation-time filter selects the tickets created inside its range", "statement": "If a pool has a creation-time filter with start <= end, a ticket passes it exactly when its creation time lies between start and end, with each boundary instant included or excluded as the bounds value says.", "quantifier": "every start, end, bounds value and creation time", "why_tests_cant": "needs every ordering of three instants and all bounds values; the shipped tests were written against swapped start/end", "anchors": ["core/internal/filter/filter.go:In", "proto/v2/messages.proto:CreationTimeRangeFilter"]}
{"id": "C03", "title": "A double-range filter never admits a value outside [minimum, maximum]", "statement": "Whatever bounds value a client sends (proto3 enums are open), a ticket whose argument lies outside the closed interval [minimum, maximum], or is NaN, is not admitted by that filter.", "quantifier": "every bounds value (any int32), every interval, every double", "why_tests_cant": "enum values outside the declared set are legal on the wire; tests enumerate only declared names", "anchors": ["core/internal/filter/filter.go:In"]}
{"id": "C04", "title": "Pools with an invalid creation-time filter are rejected and get no tickets", "statement": "Pool validation accepts a pool exactly when each of the filter's start and end, if present, is a valid protobuf timestamp (year 1 to 9999, nanos in [0,1e9)); a matchmaking function is never sent a roster for a rejected pool.", "quantifier": "every pool, every timestamp (any int64 seconds/int32 nanos), every set of cached tickets", "why_tests_cant": "timestamp space is 2^96 and validation interacts with the chunk builder for every ticket set", "anchors": ["core/internal/filter/filter.go:ValidatePoolFilters", "core/main.go:InvokeMatchmakingFunctions"]}
{"id": "C05", "title": "Filtering cannot crash the server on stored tickets", "statement": "For every ticket that went through CreateTicket and was replicated into the cache, and every pool, evaluating the pool's filters terminates with yes/no and never dereferences nil; the exact set of (pool, ticket) pairs for which it would panic is characterised.", "quantifier": "every client ticket (including one with no attributes), every pool", "why_tests_cant": "absence of a nil dereference for every shape of request cannot be sampled", "anchors": ["core/internal/filter/filter.go:In", "core/main.go:CreateTicket", "core/internal/statestore/cache/replicatedticketcache.go:IncomingReplicationQueue"]}
{"id": "C06", "title": "CreateTicket normalises timestamps and preserves client data", "statement": "The ticket that is stored carries the client's tags, string args, double args and extensions unchanged; its creation time is the client's if valid and otherwise the server's current time; its expiration time is the client's if it is valid and not later than creation time + the configured TTL, and exactly creation time + TTL otherwise; a client-supplied ticket id is never kept. A request without a ticket is rejected as an invalid argument and nothing is stored.", "quantifier": "every client ticket, every server clock reading, every TTL that fits Go's Duration", "why_tests_cant": "all combinations of missing/invalid/early/late timestamps at nanosecond resolution", "anchors": ["core/main.go:CreateTicket"]}
{"id": "C07", "title": "A ticket stops being offered at the latest TTL seconds after it was created", "statement": "Once an expiration cycle runs more than the configured TTL after the ticket's id was issued, the ticket is gone from the cache, so it can not be put in any pool.", "quantifier": "every client ticket, every history of activations, every cycle time", "why_tests_cant": "depends on client-supplied creation times and on histories of arbitrary length", "anchors": ["core/main.go:CreateTicket", "core/internal/statestore/cache/replicatedticketcache.go:IncomingReplicationQueue"]}
{"id": "C08", "title": "Ticket ids issued by the in-memory store are unique and increasing", "statement": "As long as the wall clock does not run backwards, no two updates ever get the same replication id from the in-memory state store and each id is greater than the previous one.", "quantifier": "every sequence of batches of any size, every non-decreasing sequence of clock readings", "why_tests_cant": "collisions depend on exact second boundaries between two clock reads and unbounded per-second counters", "anchors": ["core/internal/statestore/memory/main.go:getReplId", "core/internal/statestore/memory/main.go:SendUpdates"]}
{"id": "C09", "title": "Ticket ids issued by the in-memory store are unique whatever the wall clock does", "statement": "No two updates ever get the same replication id from the in-memory state store, even if the wall clock is stepped back (NTP, VM resume).", "quantifier": "every sequence of updates and every sequence of clock readings", "why_tests_cant": "tests cannot step the host clock", "anchors": ["core/internal/statestore/memory/main.go:getReplId"]}
{"id": "C10", "title": "Issued ids are accepted by id validation and carry their issue time", "statement": "Every id issued by either state store passes the ticket-id validation used by ActivateTickets/DeactivateTickets, and parsing the id the way the cache's expiry does gives back exactly the timestamp component it was issued with; different (timestamp, index) pairs give different ids.", "quantifier": "every timestamp in [0, 2^63) and every index", "why_tests_cant": "string formatting and parsing over all 64-bit numbers", "anchors": ["core/internal/statestore/memory/main.go:getReplId", "core/internal/statestore/redis/redis.go:GetReplIdValidationRegex", "core/main.go:validateTicketIds", "core/internal/statestore/cache/replicatedticketcache.go:IncomingReplicationQueue"]}
{"id": "C11", "title": "Ticket id validation accepts only well-formed ids", "statement": "An id is accepted by ActivateTickets/DeactivateTickets only if it consists of decimal digits, a dash and decimal digits.", "quantifier": "every string", "why_tests_cant": "a regular expression's language is infinite; whether it is anchored shows only on strings nobody thought to test", "anchors": ["core/main.go:validateTicketIds", "core/internal/statestore/redis/redis.go:GetReplIdValidationRegex", "core/internal/statestore/memory/main.go:GetReplIdValidationRegex"]}
{"id": "C12", "title": "Outgoing batching loses, duplicates and reorders nothing", "statement": "The update requests accepted from the handlers are written to the state store in exactly the order they were accepted, each exactly once; every batch is non-empty and no larger than the configured threshold (or 1 if the threshold is below 1).", "quantifier": "every interleaving of request arrivals and batch timeouts, every threshold", "why_tests_cant": "depends on every arrival/timeout schedule", "anchors": ["core/internal/statestore/cache/replicatedticketcache.go:OutgoingReplicationQueue"]}
{"id": "C13", "title": "In-memory store: every caller gets exactly one answer, and it is its own", "statement": "With the in-memory store each accepted request is answered exactly once, on its own channel, with no error, and for a new ticket the answer is the id under which exactly that ticket is replicated.", "quantifier": "every sequence of batches, every clock", "why_tests_cant": "needs all batch compositions and schedules", "anchors": ["core/internal/statestore/cache/replicatedticketcache.go:OutgoingReplicationQueue", "core/internal/statestore/memory/main.go:SendUpdates"]}
{"id": "C14", "title": "Redis store: every caller's answer belongs to its own update", "statement": "With the Redis store, for every batch, the answer returned for a successful new-ticket update is the id under which that very ticket was stored.", "quantifier": "every batch mixing any updates", "why_tests_cant": "needs batches that mix updates from unrelated callers, some of them malformed", "anchors": ["core/internal/statestore/redis/redis.go:SendUpdates", "core/internal/statestore/cache/replicatedticketcache.go:OutgoingReplicationQueue"]}
{"id": "C15", "title": "An update acknowledged without error is in the state store", "statement": "With the Redis store, if an update is answered without an error then it was appended to the replication stream.", "quantifier": "every batch and every failure of the connection or of individual commands", "why_tests_cant": "connection failure points cannot be enumerated by unit tests", "anchors": ["core/internal/statestore/redis/redis.go:SendUpdates", "core/main.go:CreateTicket"]}
{"id": "C16", "title": "The Redis connection pool never starves replication", "statement": "Sending a batch (or polling for updates) gives its pooled connection back, so the n-th call gets a connection for every n.", "quantifier": "every number of calls, every pool limit", "why_tests_cant": "starvation appears only after MaxActive calls; unbounded histories", "anchors": ["core/internal/statestore/redis/redis.go:SendUpdates", "core/internal/statestore/redis/redis.go:GetUpdates", "core/internal/statestore/redis/redis.go:New"]}
{"id": "C17", "title": "Redis encoding of updates round-trips", "statement": "Every well-formed ticket/activate/deactivate/assign update that is appended to the stream is decoded by every reader to the same command with the same payload; for a new ticket the key is the stream id of the entry.", "quantifier": "every update, every payload", "why_tests_cant": "payloads are arbitrary byte strings", "anchors": ["core/internal/statestore/redis/redis.go:SendUpdates", "core/internal/statestore/redis/redis.go:GetUpdates"]}
{"id": "C18", "title": "Polling Redis delivers the stream exactly once and in order", "statement": "The concatenation of everything a reader's successive polls return is a prefix of the stream, in stream order, without gaps or repeats, for any poll size >= 1, any interleaving with appends by any number of writers and any failed polls in between, provided that no entry is trimmed before the reader has read it (with the thresholds in seconds that the code uses nothing is ever trimmed); and if the reader keeps polling while nothing is appended it reaches the end.", "quantifier": "every interleaving of appends and (possibly failing) polls, every poll size", "why_tests_cant": "exactly-once delivery is a property of all schedules", "anchors": ["core/internal/statestore/redis/redis.go:GetUpdates"]}
{"id": "C19", "title": "A replicated ticket is inactive from the first moment it exists", "statement": "While replication updates are being applied, at every intermediate point between two map writes, a ticket that is in the ticket map and whose id has not been activated since it was stored is in the inactive set.", "quantifier": "every sequence of updates, every point between two atomic map operations", "why_tests_cant": "all intermediate states of all histories", "anchors": ["core/internal/statestore/cache/replicatedticketcache.go:IncomingReplicationQueue"]}
{"id": "C20", "title": "The last activation command wins", "statement": "After applying any history of replication updates a ticket is offered to pools if and only if it was created and the last create/activate/deactivate command for its id in the history is an activation; commands for other ids have no influence, and updates never remove tickets.", "quantifier": "every history of updates and every id", "why_tests_cant": "histories are unbounded", "anchors": ["core/internal/statestore/cache/replicatedticketcache.go:IncomingReplicationQueue", "core/main.go:setDifference"]}
{"id": "C21", "title": "Expiry never revives an inactive ticket", "statement": "An expiration cycle, stopped after any number of its individual map operations, never leaves a ticket active that was inactive before the cycle.", "quantifier": "every cache state, every visiting order of the maps, every clock reading, every intermediate point", "why_tests_cant": "iteration order and crash/observation points are unbounded", "anchors": ["core/internal/statestore/cache/replicatedticketcache.go:IncomingReplicationQueue"]}
{"id": "C22", "title": "Expiry removes exactly what is due", "statement": "A complete expiration cycle at time t removes a ticket iff its expiration time is before t, or it is inactive and its id is more than TTL seconds old; removes an inactive-set entry iff its id is more than TTL seconds old; removes an assignment iff its id is more than TTL + additional TTL old; and changes nothing else, whatever order the maps are visited in.", "quantifier": "every cache state, every visiting order, every t and TTL", "why_tests_cant": "every cache content and iteration order", "anchors": ["core/internal/statestore/cache/replicatedticketcache.go:IncomingReplicationQueue"]}
{"id": "C23", "title": "Replicas that applied the same history agree", "statement": "Two instances that applied the same history of updates, each interleaved with its own expiration cycles at its own times, have identical caches after each runs one more cycle at the same time, provided no ticket's expiration time is later than its id time + TTL.", "quantifier": "every history, every placement and timing of cycles in two replicas", "why_tests_cant": "convergence ranges over all pairs of schedules", "anchors": ["core/internal/statestore/cache/replicatedticketcache.go:IncomingReplicationQueue"]}
{"id": "C24", "title": "Replicas agree even for client-supplied creation times", "statement": "The agreement of replicas holds for all tickets CreateTicket can produce, including those with a client-supplied creation time in the future.", "quantifier": "every history and every pair of cycle schedules", "why_tests_cant": "needs an adversarial pair of schedules", "anchors": ["core/internal/statestore/cache/replicatedticketcache.go:IncomingReplicationQueue", "core/main.go:CreateTicket"]}
{"id": "C25", "title": "A late joiner sees the same tickets", "statement": "An instance that starts from a stream whose oldest entries have been trimmed computes, for every ticket whose creation entry is still in the stream, the same presence, content and activity as an instance that read the whole stream.", "quantifier": "every stream, every trim point", "why_tests_cant": "every split of every history", "anchors": ["core/internal/statestore/redis/redis.go:GetUpdates", "core/internal/statestore/redis/redis.go:SendUpdates", "core/internal/statestore/cache/replicatedticketcache.go:IncomingReplicationQueue"]}
{"id": "C26", "title": "With Redis, inactive-set entries and assignments expire", "statement": "With the Redis store (whose ids carry milliseconds) an inactive ticket id or an assignment that is older than its TTL is removed by the next expiration cycle.", "quantifier": "every id Redis can issue since 2001, every TTL", "why_tests_cant": "unit mismatch only visible when combining the real id format with elapsed time", "anchors": ["core/internal/statestore/cache/replicatedticketcache.go:IncomingReplicationQueue", "core/internal/statestore/redis/redis.go:SendUpdates"]}
{"id": "C27", "title": "With Redis, every batch trims entries older than TTL from the stream", "statement": "After a batch is written no stream entry older than the configured TTL remains, so the stream does not grow without bound.", "quantifier": "every stream content and every clock", "why_tests_cant": "needs the real id unit and long histories", "anchors": ["core/internal/statestore/redis/redis.go:SendUpdates"]}
{"id": "C28", "title": "Assignments: last write wins and they are kept long enough", "statement": "After any history the assignment stored for an id is the one in the last assign command for it, it is not changed by any other command, and no expiration cycle removes it before TTL + additional TTL seconds after the id was issued.", "quantifier": "every history, every id, every cycle time", "why_tests_cant": "unbounded histories and cycle times", "anchors": ["core/internal/statestore/cache/replicatedticketcache.go:IncomingReplicationQueue", "core/main.go:CreateAssignments"]}
{"id": "C29", "title": "A ticket that was never activated is never sent to a matchmaking function", "statement": "The pools sent to matchmaking functions contain only tickets that were active at some moment during the invocation.", "quantifier": "every interleaving of the snapshot with concurrent replication and expiry", "why_tests_cant": "race between two map traversals and a writer", "anchors": ["core/main.go:setDifference", "core/main.go:InvokeMatchmakingFunctions", "core/internal/statestore/cache/replicatedticketcache.go:IncomingReplicationQueue"]}
{"id": "C30", "title": "The snapshot contains every stably active ticket, once, and no stably inactive one", "statement": "A ticket that is cached and active during the whole snapshot is in it exactly once; a ticket that is inactive during the whole time the inactive set is read is not in it; and every ticket in it was in the ticket map at some moment of the traversal.", "quantifier": "every interleaving, every per-key linearisation of the map traversals", "why_tests_cant": "all interleavings", "anchors": ["core/main.go:setDifference", "core/main.go:syncMapDump"]}
{"id": "C31", "title": "Activate/DeactivateTickets enforce limits and send exactly the accepted ids", "statement": "A call with no ids or more ids than the configured maximum is rejected with InvalidArgument and sends nothing; any other call sends exactly one update per accepted id, in request order, of the right kind, and no other update.", "quantifier": "every request, every limit", "why_tests_cant": "all lists of strings", "anchors": ["core/main.go:ActivateTickets", "core/main.go:DeactivateTickets", "core/main.go:updateTicketsActiveState", "core/main.go:validateTicketIds"]}
{"id": "C32", "title": "A caller is told about ids that were not activated", "statement": "If ActivateTickets/DeactivateTickets returns OK then every id in the request was sent to the state store.", "quantifier": "every request", "why_tests_cant": "all lists of strings", "anchors": ["core/main.go:ActivateTickets", "core/main.go:addStateUpdateErrorDetails"]}
{"id": "C33", "title": "Failed state updates are reported", "statement": "ActivateTickets/DeactivateTickets returns an error if and only if at least one of its updates failed, and the error's details contain one violation for each failed id.", "quantifier": "every request and every combination of per-update results", "why_tests_cant": "all result vectors", "anchors": ["core/main.go:updateTicketsActiveState", "core/main.go:addStateUpdateErrorDetails", "core/internal/statestore/redis/redis.go:SendUpdates"]}
{"id": "C34", "title": "CreateAssignments assigns exactly the named tickets", "statement": "A valid CreateAssignments call sends one assign update for each roster ticket with a non-empty id, in roster order, all carrying the roster's assignment, and nothing else; a call without roster or assignment is rejected with InvalidArgument and sends nothing.", "quantifier": "every roster", "why_tests_cant": "all rosters", "anchors": ["core/main.go:CreateAssignments"]}
{"id": "C35", "title": "CreateAssignments reports failures", "statement": "If some ticket in the roster has an empty id, or the state store reports an error for one of the assignments, the call returns an error.", "quantifier": "every roster and result vector", "why_tests_cant": "all result vectors", "anchors": ["core/main.go:CreateAssignments"]}
{"id": "C36", "title": "Matchmaking functions receive exactly the eligible tickets", "statement": "Splitting the pools into chunks and re-assembling them in the matchmaking function gives, for every valid pool with at least one eligible ticket, a roster with exactly the snapshot tickets that pass the pool's filters, in snapshot order, each as often as in the snapshot, and no other pools.", "quantifier": "every snapshot, every set of pools, every per-ticket map iteration order, every chunk size limit", "why_tests_cant": "all chunk boundaries and all map iteration orders", "anchors": ["core/main.go:InvokeMatchmakingFunctions", "mmf/server/server.go:GetChunkedRequest"]}
{"id": "C37", "title": "Chunks respect the 4,000,000-byte budget as accounted", "statement": "For every chunk the size of the empty request plus the encoded sizes of its tickets stays below 4,000,000 unless the chunk holds a single ticket entry; every chunk carries the total number of chunks, and there is at least one chunk.", "quantifier": "every snapshot and pool set", "why_tests_cant": "all chunk boundaries", "anchors": ["core/main.go:InvokeMatchmakingFunctions"]}
{"id": "C38", "title": "Every chunk fits into a gRPC message", "statement": "Every chunk's encoded size is at most gRPC's default maximum message size (4 MiB) whenever the empty profile plus any single ticket fits within the budget.", "quantifier": "every snapshot and pool set", "why_tests_cant": "needs hundreds of thousands of tickets and exact wire sizes", "anchors": ["core/main.go:InvokeMatchmakingFunctions"]}
{"id": "C39", "title": "The profile is passed through to matchmaking functions", "statement": "The re-assembled profile has the client's profile name and extensions, and every pool keeps its name, filters and extensions.", "quantifier": "every profile", "why_tests_cant": "all profiles", "anchors": ["core/main.go:InvokeMatchmakingFunctions", "mmf/server/server.go:GetChunkedRequest", "proto/v2/messages.proto"]}
{"id": "C40", "title": "Matches are relayed faithfully and only after their tickets are deactivated", "statement": "In every reachable state of an invocation, the matches streamed to the caller are matches received from the functions, none twice, and for each streamed match every ticket in it had a deactivation sent to and answered by the state store before.", "quantifier": "every number of functions, matches and every goroutine schedule", "why_tests_cant": "all goroutine interleavings", "anchors": ["core/main.go:InvokeMatchmakingFunctions", "core/main.go:updateTicketsActiveState"]}
{"id": "C41", "title": "No match is lost when all functions finish normally", "statement": "When an invocation whose functions all end normally returns, every match they returned has been streamed to the caller.", "quantifier": "every goroutine schedule", "why_tests_cant": "needs a specific schedule between the fan-in goroutine and the handler's return", "anchors": ["core/main.go:InvokeMatchmakingFunctions"]}
{"id": "C42", "title": "A matchmaking function cannot crash om-core", "statement": "Whatever matches a function streams and however its stream ends, the server process does not panic.", "quantifier": "every function behaviour and schedule", "why_tests_cant": "needs adversarial function output and schedules", "anchors": ["core/main.go:InvokeMatchmakingFunctions"]}
{"id": "C43", "title": "With deactivation wait on, a match is returned only after deactivation is visible locally", "statement": "With OM_MATCH_TICKET_DEACTIVATION_WAIT set, when a match is streamed to the caller all its tickets are in the local inactive set.", "quantifier": "every schedule and replication delay", "why_tests_cant": "needs control over replication delay", "anchors": ["core/main.go:InvokeMatchmakingFunctions"]}
{"id": "C44", "title": "Failures of matchmaking functions are reported to the caller", "statement": "If a requested function can not be invoked or fails, InvokeMatchmakingFunctions returns an error.", "quantifier": "every set of functions and failures", "why_tests_cant": "all failure combinations", "anchors": ["core/main.go:InvokeMatchmakingFunctions"]}
{"id": "C45", "title": "WatchAssignments streams only genuine assignments, at most one per requested id", "statement": "Every response streamed by WatchAssignments carries a requested id and the assignment stored for that id at some moment during the watch; there are at most as many responses for an id as times it was requested; when the call ends before its timeout, every requested id was answered.", "quantifier": "every request, every history of assignments, every schedule", "why_tests_cant": "all schedules of the polling goroutines", "anchors": ["core/main.go:WatchAssignments"]}
{"id": "C46", "title": "WatchAssignments cannot crash the server", "statement": "Whatever the order of assignments, timeouts and polling, the server process does not panic because of a watch.", "quantifier": "every schedule", "why_tests_cant": "needs an assignment to arrive after the watch timed out", "anchors": ["core/main.go:WatchAssignments"]}
{"id": "C47", "title": "The number-of-watches gauge returns to its old value when a watch ends", "statement": "After WatchAssignments returns, the assignment watch gauge is back at the value it had before the call.", "quantifier": "every request and outcome", "why_tests_cant": "all combinations of answered and timed-out ids", "anchors": ["core/main.go:WatchAssignments"]}
{"id": "C48", "title": "soloduel pairs tickets first-come first-served", "statement": "The 1v1 function returns floor(n/2) matches of exactly two tickets each; read in order the matches list the first 2*floor(n/2) tickets of the concatenated pools, so no ticket occurrence is used twice and at most one is left over.", "quantifier": "every set of pools and every pool iteration order", "why_tests_cant": "all ticket lists", "anchors": ["functions/golang/soloduel/soloduel.go:Run"]}
{"id": "C49", "title": "soloduel never matches a ticket against itself", "statement": "No match returned by the 1v1 function contains the same ticket twice, even if a ticket is in several pools.", "quantifier": "every profile", "why_tests_cant": "needs overlapping pools", "anchors": ["functions/golang/soloduel/soloduel.go:Run"]}
{"id": "C50", "title": "battleroyale fills matches of 100", "statement": "The battle royale function returns floor(n/100) matches of exactly 100 consecutive tickets of the 'competitive' pool; no ticket occurrence is used twice and fewer than 100 are left over.", "quantifier": "every pool", "why_tests_cant": "all pool sizes", "anchors": ["functions/golang/battleroyale/battleroyale.go:Run"]}
{"id": "C51", "title": "teamshooter builds complete 5v5 matches and as many as possible", "statement": "Every match of the 5v5 function has two rosters of one tank, one healer and three dps tickets in that order, taken from the respective pools without using any ticket occurrence twice, and the number of matches is the maximum possible, min(tanks/2, healers/2, dps/6, 100000).", "quantifier": "every set of pools", "why_tests_cant": "all pool sizes", "anchors": ["functions/golang/teamshooter/teamshooter.go:Run"]}
{"id": "C52", "title": "Match ids are unique within one run of a sample function", "statement": "All matches returned by one run of a sample matchmaking function have pairwise different ids.", "quantifier": "every number of matches", "why_tests_cant": "decimal formatting over all numbers", "anchors": ["functions/golang/soloduel/soloduel.go:Run", "functions/golang/battleroyale/battleroyale.go:Run", "functions/golang/teamshooter/teamshooter.go:Run"]}
{"id": "C53", "title": "The example matchmaker activates every queued ticket once in legal batches", "statement": "activateTickets empties the queue: the batches it sends, concatenated, are the queued ids in order, each batch is non-empty and has at most 500 ids.", "quantifier": "every queue content (and arrivals while draining)", "why_tests_cant": "all queue lengths around multiples of 500", "anchors": ["matchmaker-example/main.go:activateTickets"]}
{"id": "C54", "title": "The example matchmaker stops after three consecutive empty cycles", "statement": "Unless told to ignore them, the matchmaking loop stops on the third consecutive cycle that yields no match.", "quantifier": "every sequence of cycle results", "why_tests_cant": "all sequences", "anchors": ["matchmaker-example/main.go:main"]}
{"id": "C55", "title": "Re-activating rejected tickets never blocks the example matchmaker", "statement": "However many tickets are in rejected matches, the loop goes on to activate them.", "quantifier": "every number of rejected tickets", "why_tests_cant": "needs more than 10000 rejected tickets in a cycle", "anchors": ["matchmaker-example/main.go:main"]}
{"id": "C56", "title": "The match counter counts matches", "statement": "After a function finishes normally the match counter has grown by the number of matches the function returned.", "quantifier": "every number of matches", "why_tests_cant": "all stream lengths", "anchors": ["core/main.go:InvokeMatchmakingFunctions"]}
{"id": "C57", "title": "The cache gauges report what the cycle saw", "statement": "After an expiration cycle the ticket, inactive and assignment gauges equal the number of tickets, inactive ids and assignments in the cache when the cycle began.", "quantifier": "every cache state and visiting order", "why_tests_cant": "all states", "anchors": ["core/internal/statestore/cache/replicatedticketcache.go:IncomingReplicationQueue", "core/internal/statestore/cache/metrics.go:RegisterMetrics"]}
{"id": "C58", "title": "The active-tickets gauge equals the number of active tickets", "statement": "The value reported as active tickets is the number of tickets that can appear in pools.", "quantifier": "every cache state", "why_tests_cant": "all states including dangling inactive entries", "anchors": ["core/internal/statestore/cache/metrics.go:RegisterMetrics", "core/internal/statestore/cache/replicatedticketcache.go:IncomingReplicationQueue"]}
{"id": "C59", "title": "Stored tickets and assignments survive serialisation", "statement": "Encoding a ticket (or assignment) for the state store and decoding it in any replica gives back an equal message, for every order in which the encoder visits the message's maps.", "quantifier": "every message and every map iteration order", "why_tests_cant": "all messages", "anchors": ["core/main.go:CreateTicket", "core/main.go:CreateAssignments", "core/internal/statestore/cache/replicatedticketcache.go:IncomingReplicationQueue", "proto/v2/messages.proto"]}
{"id": "C60", "title": "End to end, one instance: a created ticket is stored under the returned id", "statement": "In every reachable state of a server with the in-memory store, whose clock starts in 1970 or later and is never set back, if CreateTicket returned an id then that ticket was replicated under exactly that id, the ids returned by different calls differ, the cache content is determined by the replicated history and expiry alone, and the ticket is in pools only if a later activation was applied.", "quantifier": "every interleaving of calls, batches, polls, applications, expiry cycles and clock ticks", "why_tests_cant": "whole-system interleavings", "anchors": ["core/main.go:CreateTicket", "core/internal/statestore/cache/replicatedticketcache.go", "core/internal/statestore/memory/main.go"]}
{"id": "C61", "title": "End to end, many instances: all instances see one history", "statement": "With the Redis store and only well-formed updates, in every reachable state of any number of instances, each instance has applied a prefix of one common history, ids returned to callers are unique across instances and name the caller's ticket in every instance that has caught up.", "quantifier": "any number of instances, every interleaving", "why_tests_cant": "distributed interleavings", "anchors": ["core/internal/statestore/redis/redis.go", "core/internal/statestore/cache/replicatedticketcache.go"]}
{"id": "C62", "title": "Log level names are understood case-insensitively and unknown ones mean info", "statement": "The configured log level is recognised regardless of ASCII case; 'warn' and 'warning' mean the same; anything unknown means info; debug output is on exactly for debug and trace.", "quantifier": "every string", "why_tests_cant": "all strings", "anchors": ["core/internal/logging/logging.go"]}
{"id": "C63", "title": "The HTTP gateway routes are unambiguous", "statement": "Each RPC is reachable by exactly one HTTP method and path (a form that asks for another method by header counts as that method), different RPCs have different routes, and a request that matches none of the routes reaches no RPC.", "quantifier": "every method, path and override header", "why_tests_cant": "all paths", "anchors": ["core/pkg/api/v2/api.pb.gw.go", "proto/v2/api.yaml"]}
{"id": "C64", "title": "Standalone function server port selection", "statement": "The standalone function server listens on the PORT environment value when it is a decimal number that fits the port's type and on 8081 otherwise.", "quantifier": "every environment value", "why_tests_cant": "all strings", "anchors": ["mmf/main.go:main"]}
{"id": "C65", "title": "A watch gives up when its tickets have expired", "statement": "A watch of tickets created before the call stops waiting at the latest one ticket lifetime after the call (and never earlier than that).", "quantifier": "every set of issued ids of either store, every schedule", "why_tests_cant": "needs to wait for the timer; the failing case is 292 years long", "anchors": ["core/main.go:WatchAssignments"]}
{"id": "C66", "title": "An ended watch leaves nothing running", "statement": "When WatchAssignments has returned, none of the goroutines it started is still running.", "quantifier": "every request, schedule and outcome", "why_tests_cant": "goroutine leaks are invisible to the caller", "anchors": ["core/main.go:WatchAssignments"]}
{"id": "C67", "title": "An invocation of functions can always finish", "statement": "From every reachable state of an invocation some continuation returns to the caller or crashes the server; in particular no goroutine schedule and no function behaviour leads to a deadlock.", "quantifier": "every number of functions, matches, goroutine schedule and configuration", "why_tests_cant": "deadlock freedom over all interleavings", "anchors": ["core/main.go:InvokeMatchmakingFunctions"]}
{"id": "C68", "title": "Activation calls are complete when activateTickets returns", "statement": "When the example matchmaker's activateTickets returns, all the activation calls it made are complete.", "quantifier": "every queue, arrival and goroutine schedule", "why_tests_cant": "needs the schedule in which Wait runs before a goroutine's Add", "anchors": ["matchmaker-example/main.go:activateTickets"]}
{"id": "C69", "title": "The example matchmaker counts only results as matches", "statement": "Over HTTP, every match the matchmaking loop counts comes from a result in the gateway's response stream, and no response makes it crash.", "quantifier": "every response stream", "why_tests_cant": "all response texts", "anchors": ["matchmaker-example/main.go:main"]}
{"id": "C70", "title": "One instance never deadlocks or panics, and a created then activated ticket becomes active", "statement": "In every reachable state of a server with the in-memory store none of the replication goroutines and none of the calls that create, activate, deactivate or assign tickets panics (in particular no result is sent on a closed results channel; for the crashes of the streaming calls see C42 and C46), and without any further call the server can reach a state in which every call has returned and everything written has been applied. Updates of a call begun after CreateTicket returned are replicated after that ticket, so a ticket activated by such a call is active once everything has been applied, unless it was deactivated or expired.", "quantifier": "every interleaving of calls, batches, polls, applications, expiry cycles and clock ticks; every configuration of thresholds and channel capacities", "why_tests_cant": "deadlocks and lost updates depend on rare interleavings of four goroutines and channel capacities", "anchors": ["core/internal/statestore/cache/replicatedticketcache.go:74-348", "core/internal/statestore/memory/main.go:48-94", "core/main.go:201", "core/main.go:238", "core/main.go:750"]}
{"id": "C71", "title": "Many instances never deadlock or panic, and a ticket created at one and activated at another becomes active everywhere", "statement": "With the Redis store and any number of instances, a poll limit of at least 1 and entries that are not trimmed before every instance has read them: none of the replication goroutines and none of the calls that create, activate, deactivate or assign tickets panics (for the streaming calls see C42 and C46, for an exhausted connection pool C16); without any further call a state can be reached in which every call has returned and every instance has applied the whole common history; updates acknowledged to a call begun (at any instance) after CreateTicket returned come after that ticket in the common history, so a ticket activated by such a call is active in every instance that has caught up, unless deactivated or expired.", "quantifier": "every number of instances, every interleaving of calls, batches, XADDs, refused commands, broken connections, trims, polls and expiry cycles", "why_tests_cant": "needs the interleavings of several servers, each with four goroutines, and of connection failures", "anchors": ["core/internal/statestore/redis/redis.go:101-309", "core/internal/statestore/cache/replicatedticketcache.go:74-348", "core/main.go:144-353"]}
{"id": "C72", "title": "One instance, end to end: activated tickets reach the functions, as their creators sent them", "statement": "With the in-memory store: requests built from the tickets clients have created never panic and are reassembled by GetChunkedRequest; every ticket in a pool a function gets passes that pool's filters and was created by a CreateTicket call with exactly the attributes it has and the id that call returns, and no ticket is in a pool twice; a ticket created and then activated is in every pool it is eligible for once its activation has been applied, unless deactivated or expired; a ticket stored before the snapshot whose last applied state change was not an activation is not offered.", "quantifier": "every reachable state of one instance, every concurrent progress of the instance during the snapshot, every profile, all map orders", "why_tests_cant": "combines all goroutines, the race between snapshot and replication, and the splitting of requests", "anchors": ["core/main.go:144-353", "core/main.go:385-472", "core/main.go:932-959", "core/internal/statestore/cache/replicatedticketcache.go:74-348", "core/internal/statestore/memory/main.go:48-94", "mmf/server/server.go:70-112"]}
{"id": "C73", "title": "Many instances, end to end: tickets created at one instance and activated at another reach the functions called by any", "statement": "The claims of C72 for any number of instances sharing one Redis stream: tickets in pools were created by a CreateTicket call at some instance, with these attributes and, if that call was told an id, this id; a ticket created at one instance and activated at another reaches the functions called by every instance that has caught up, unless deactivated or expired; tickets whose last applied state change was not an activation are not offered.", "quantifier": "every number of instances, every interleaving including broken connections and refused commands, every profile", "why_tests_cant": "needs several servers, failures, and the snapshot race together", "anchors": ["core/main.go:144-353", "core/main.go:385-472", "core/main.go:932-959", "core/internal/statestore/cache/replicatedticketcache.go:74-348", "core/internal/statestore/memory/main.go:48-94", "mmf/server/server.go:70-112", "core/internal/statestore/redis/redis.go:101-309"]}
{"id": "C74", "title": "Functions are given only tickets whose activation was asked for", "statement": "A ticket in a pool that a matchmaking function receives was the subject of an ActivateTickets call.", "quantifier": "every reachable state, every concurrent progress during the snapshot", "why_tests_cant": "needs a ticket to be created between two reads of the snapshot", "anchors": ["core/main.go:391", "core/main.go:932-959", "core/internal/statestore/cache/replicatedticketcache.go:172-221"]}
{"id": "C75", "title": "Settings mean what they say", "statement": "An integer setting that is unset or empty has its default; one written as a decimal number has that value; one that cannot be read keeps the default.", "quantifier": "every environment, every setting, every value text", "why_tests_cant": "there are infinitely many texts; tests use the defaults or well-formed numbers", "anchors": ["core/internal/config/config.go:37-121", "core/main.go:170"]}
{"id": "C76", "title": "The server and Redis understand the poll limit alike", "statement": "The number of updates to fetch per poll has the same value for the incoming queue of the server and for the Redis command it is sent with.", "quantifier": "every environment in which the setting is a decimal number", "why_tests_cant": "the two readings are in different programs and agree for ordinary numbers", "anchors": ["core/internal/statestore/cache/replicatedticketcache.go:144", "core/internal/statestore/redis/redis.go:245"]}
{"id": "C77", "title": "No setting crashes the server", "statement": "Whatever the environment, the server starts its replication without a crash and uses the settings as read.", "quantifier": "every environment", "why_tests_cant": "needs a misspelt storage type or a negative limit", "anchors": ["core/main.go:98-122", "core/internal/statestore/cache/replicatedticketcache.go:144-149"]}
{"id": "C78", "title": "Logging settings take effect", "statement": "An unknown log format means the documented default, and the debug check follows the configured log level.", "quantifier": "every environment", "why_tests_cant": "needs an unknown format name; the debug check is not called anywhere", "anchors": ["core/internal/logging/logging.go:26-71"]}
{"id": "C79", "title": "Assignments end to end, one instance", "statement": "With the in-memory store: every assignment in the cache is exactly what some CreateAssignments call sent for that ticket; the last of successive assignments of a ticket wins once everything has been applied (unless expired); whatever WatchAssignments streams was assigned to a requested ticket by such a call; and a watch whose tickets all have assignments, and that has not timed out, can answer them all and return.", "quantifier": "All reachable states of the one-instance system, all interleavings of calls, expiration cycles, and the goroutines of a watch alongside it, all rosters that protobuf can carry.", "why_tests_cant": "The path crosses the handler, the outgoing queue, the store, the polling goroutine, the cache and the goroutines of the watch; tests exercise one schedule.", "anchors": ["core/main.go:739-794", "core/main.go:805-872", "core/internal/statestore/cache/replicatedticketcache.go:72-260", "core/internal/statestore/memory/main.go:40-107"]}
{"id": "C80", "title": "Assignments end to end, many instances", "statement": "On one Redis stream: every assignment in the cache of any instance is exactly what some CreateAssignments call at some instance sent for that ticket; the last of successive acknowledged assignments wins in every instance that has caught up (unless expired); whatever a watch at any instance streams was assigned to a requested ticket by a call at some instance; a watch whose tickets all have assignments in its instance, and that has not timed out, can answer them all and return.", "quantifier": "All reachable states of groups of any number of instances, all schedules, broken connections, refused commands, late execution of the commands of broken connections and stream trims.", "why_tests_cant": "As C79, with several processes and failures in between; late execution after an error makes the order of assignments unpredictable, so acknowledgement is needed.", "anchors": ["core/main.go:739-794", "core/main.go:805-872", "core/internal/statestore/redis/redis.go:101-309", "core/internal/statestore/cache/replicatedticketcache.go:72-260"]}
{"id": "C81", "title": "The last activation or deactivation wins (one instance, in-memory store)", "statement": "A ticket is created; later a call makes it active (ActivateTickets) or inactive (DeactivateTickets, or because a function put it in a match) after all calls that do the opposite have returned. Once that call has returned and everything written has been applied, the ticket is in the cache and is active exactly when the call was an activation, unless it has expired. A deactivated or matched ticket is in no snapshot taken from then on until somebody activates it again; a ticket activated again is in every pool it is eligible for.", "quantifier": "all executions of the instance model: every interleaving of handlers, queue, replicator and cache goroutines, all batch settings, all clock readings, every profile", "why_tests_cant": "needs all interleavings of concurrent activations, deactivations, batching, replication and snapshots", "anchors": ["core/main.go:225-345", "core/main.go:385-400", "core/main.go:624-644", "core/internal/statestore/cache/replicatedticketcache.go:72-260", "core/internal/statestore/memory/main.go:40-107"]}
{"id": "C82", "title": "The last activation or deactivation wins (several instances, Redis)", "statement": "As C81 for a group of instances on one Redis stream: the ticket may be created, activated, deactivated or matched at different instances. When the update of the last call and all opposite calls before it were acknowledged, every instance that has caught up has the ticket, active exactly when the last call was an activation; a ticket deactivated or matched at one instance is not offered by another one that has caught up until somebody activates it again, and one activated again reaches functions called by any instance that has caught up.", "quantifier": "all executions of the group: any number of instances, every interleaving, partial replies, broken connections, trims", "why_tests_cant": "needs all interleavings of several processes and the store", "anchors": ["core/main.go:225-345", "core/main.go:385-400", "core/main.go:624-644", "core/internal/statestore/cache/replicatedticketcache.go:72-260", "core/internal/statestore/redis/redis.go:101-309"]}
{"id": "C83", "title": "The client of CreateTicket is told the id of its ticket (one instance, in-memory store)", "statement": "When a CreateTicket call returns, the response has exactly one ticket id and no error. The id has the form <digits>-<digits>, ActivateTickets accepts it, and the ticket of this call is the only thing ever written under it.", "quantifier": "all executions of the instance model: every interleaving of handlers, queue, replicator and cache goroutines, all batch settings, all clock readings", "why_tests_cant": "a test would have to cover all interleavings of concurrent calls whose answers pass through one queue", "anchors": ["core/main.go:144-223", "core/main.go:219-222", "core/internal/statestore/memory/main.go:73-107"]}
{"id": "C84", "title": "The client of CreateTicket is told the id of its ticket (several instances, Redis)", "statement": "An answer of CreateTicket without an error carries the id of the ticket that was created; an answer with an error, or without an id, means that no ticket was created.", "quantifier": "all executions of the group: any number of instances, every interleaving, refused commands, broken connections, trims", "why_tests_cant": "needs broken connections at every point of the exchange with the store", "anchors": ["core/main.go:144-223", "core/main.go:219-222", "core/internal/statestore/redis/redis.go:101-225"]}
{"id": "C85", "title": "Foreign entries in the replication stream are harmless", "statement": "Whatever is in the replication stream, reading it does not crash an instance, and entries of a kind this version does not know (written by a newer version, or by hand) change nothing.", "quantifier": "all streams, cursors and batch sizes; all caches", "why_tests_cant": "tests only read streams written by the same version", "anchors": ["core/internal/statestore/redis/redis.go:271-306", "core/internal/statestore/datatypes/store.go:19-31"]}
{"id": "C86", "title": "Instances that have applied the same updates for an id agree about it", "statement": "Two instances on one Redis stream that have applied the same updates for a ticket id (for example because both have caught up, or because nothing either still has to apply concerns the id) agree about the ticket: what one has, the other has with the same content and state, and the same assignment, unless an expiration cycle of the other one met it when it was due.", "quantifier": "all executions of the group: any number of instances, every interleaving, all expiration cycles at any times", "why_tests_cant": "needs two processes and all interleavings of replication and expiration", "anchors": ["core/internal/statestore/cache/replicatedticketcache.go:140-345", "core/internal/statestore/redis/redis.go:232-309"]}
{"id": "C87", "title": "Requests to the outgoing queue are answered in bounded time and in order", "statement": "Let W be OM_CACHE_OUT_WAIT_TIMEOUT_MS, N the larger of 1 and OM_CACHE_OUT_MAX_QUEUE_THRESHOLD, and D the longest time one batch takes to be written and answered. A request (new ticket, activation, deactivation, assignment) that a handler offers to the outgoing replication queue while k others are waiting is answered within W + (k/N + 2) * D, rounding k/N down, and requests are answered in the order in which they were offered.", "quantifier": "for all settings with W > 0, all numbers and times of requests, and all choices of the select when both the timer and a request are ready", "why_tests_cant": "The worst case needs a request that arrives exactly when the timer fires; tests measure averages and cannot enumerate arrival times and select choices.", "anchors": ["core/internal/statestore/cache/replicatedticketcache.go:74-127", "core/main.go:101-101"]}
{"id": "C88", "title": "Expired data leaves the cache in bounded time", "statement": "The loop that applies replicated updates has a hard limit of 500 ms, after which it runs an expiration cycle; so a ticket, inactive mark or assignment that has expired is out of the cache a bounded time later: the waiting time OM_CACHE_IN_WAIT_TIMEOUT_MS, the longest stretch of updates, and two expiration cycles after it has expired (or was last updated, if that is later).", "quantifier": "for all settings, all update sequences with all arrival times, and all durations of the single steps", "why_tests_cant": "The limit only matters under sustained load for longer than any test runs; that it never takes effect is invisible until then.", "anchors": ["core/internal/statestore/cache/replicatedticketcache.go:157-228", "core/internal/statestore/cache/replicatedticketcache.go:268-347"]}
{"id": "C89", "title": "Functions are looked for at the host and port of their specification", "statement": "When InvokeMatchmakingFunctions is asked to run a function with a given host and positive port, the connection it makes is a TCP connection to that host and port; two different functions are never confused.", "quantifier": "for all hosts and ports", "why_tests_cant": "Hosts in tests are localhost or container names; the hosts that are misread (names of URL schemes, IPv6 addresses) never appear there.", "anchors": ["core/main.go:526-552", "proto/v2/messages.proto:173-183"]}
{"id": "C90", "title": "The sample functions make matches of clients' tickets and leave few over", "statement": "A sample matchmaking function (soloduel, battleroyale, teamshooter) called by om-core for any profile does not panic, and every ticket in its matches was created by a client's CreateTicket call, carries the id that call returned, and passes the filters of a pool the function uses. soloduel leaves at most one eligible ticket unmatched, battleroyale fewer than 100, and teamshooter makes as many complete matches as the three pools allow (at most 100000).", "quantifier": "every execution of one instance or of a group on Redis, every snapshot, profile, pool order and split into chunks", "why_tests_cant": "needs all interleavings of the cache with the snapshot and every map order on both sides of the stream", "anchors": ["functions/golang/soloduel/soloduel.go:Run", "functions/golang/battleroyale/battleroyale.go:Run", "functions/golang/teamshooter/teamshooter.go:Run", "core/main.go:InvokeMatchmakingFunctions", "mmf/server/server.go:GetChunkedRequest"]}
{"id": "C91", "title": "No ticket is used twice in one run of a sample function", "statement": "In all the matches of one run of a sample function no ticket appears twice.", "quantifier": "every profile and snapshot with distinct ticket ids", "why_tests_cant": "needs players that fit several pools in particular proportions", "anchors": ["functions/golang/soloduel/soloduel.go:Run", "functions/golang/teamshooter/teamshooter.go:Run", "functions/golang/battleroyale/battleroyale.go:Run"]}
{"id": "C92", "title": "A function that can not read its whole request makes no match", "statement": "When the stream from om-core breaks before the last chunk of the request, the sample functions neither panic nor return a match made from part of the tickets.", "quantifier": "every profile, snapshot, split into chunks and place where the stream breaks", "why_tests_cant": "needs a connection failure between any two chunks", "anchors": ["mmf/server/server.go:GetChunkedRequest", "functions/golang/soloduel/soloduel.go:Run", "functions/golang/battleroyale/battleroyale.go:Run", "functions/golang/teamshooter/teamshooter.go:Run"]}
{"id": "C93", "title": "Match ids of different runs differ", "statement": "Two runs of a sample function at different times, and runs of different sample functions, never give two matches the same id.", "quantifier": "all requests and clock readings", "why_tests_cant": "needs two runs within a hundredth of a second", "anchors": ["functions/golang/soloduel/soloduel.go:Run", "functions/golang/battleroyale/battleroyale.go:Run", "functions/golang/teamshooter/teamshooter.go:Run"]}
{"id": "C94", "title": "An id has one creation time", "statement": "An id that passes validation has the same creation time for a watch (base 0) as for the expiry of the cache (base 10).", "quantifier": "every id text", "why_tests_cant": "all texts; the tests use no id with a leading zero or prefix", "anchors": ["core/main.go:WatchAssignments", "core/internal/statestore/cache/replicatedticketcache.go:ExpireTickets"]}
{"id": "C95", "title": "Every call is measured once under its name", "statement": "The duration histogram gets one value per ended call, labelled with the method's name and exact to the microsecond; the error counter grows by one per failed call, with its name and text; different calls have different names.", "quantifier": "every sequence of reports of the gRPC server", "why_tests_cant": "all sequences and method names", "anchors": ["core/server.go:HandleRPC", "core/pkg/pb/v2/api_grpc.pb.go"]}
{"id": "C96", "title": "The per-call histograms count what was done", "statement": "The number recorded by ActivateTickets and DeactivateTickets is the number of tickets whose state was set; that recorded by CreateAssignments is the number of assignments made.", "quantifier": "every request and every set of answers", "why_tests_cant": "needs updates that fail", "anchors": ["core/main.go:ActivateTickets", "core/main.go:DeactivateTickets", "core/main.go:CreateAssignments"]}
{"id": "C97", "title": "The duration of an expiration cycle is recorded in milliseconds", "statement": "The recorded duration of an expiration cycle is its duration in milliseconds with microsecond precision, as for calls.", "quantifier": "every duration", "why_tests_cant": "all durations", "anchors": ["core/internal/statestore/cache/replicatedticketcache.go:IncomingReplicationQueue"]}
{"id": "C98", "title": "The example reads every match streamed over HTTP", "statement": "For every sequence of results the gateway streams, whatever their content and however protojson was built, the example matchmaker hands exactly these results, in order, to the JSON decoder.", "quantifier": "every sequence of JSON results, both spacings protojson can be built with", "why_tests_cant": "needs matches containing spaces, and builds with the other random spacing", "anchors": ["matchmaker-example/main.go:main", "core/main.go:main"]}
{"id": "C99", "title": "The example's players are in one pool each and used once", "statement": "When all tickets come from the example's mock frontend, every ticket offered to a function is in exactly one pool of the example's profile, that of its class, and no ticket is used twice in a run of any of the example's functions.", "quantifier": "every execution of om-core, one instance or many, every snapshot and every sample function", "why_tests_cant": "all interleavings and random choices", "anchors": ["matchmaker-example/main.go:generateMockClientRequest", "matchmaker-example/main.go:main", "functions/golang/soloduel/soloduel.go:Run", "functions/golang/teamshooter/teamshooter.go:Run"]}
{"id": "C100", "title": "Every function the example calls makes matches", "statement": "With a hundred players of each class every function the example calls makes at least one match.", "quantifier": "every set of tickets, every function of the example", "why_tests_cant": "all sets of tickets", "anchors": ["matchmaker-example/main.go:main", "functions/golang/battleroyale/battleroyale.go:Run"]}
{"id": "C101", "title": "Every match is accepted or rejected, one in a hundred is rejected, and rejected tickets return", "statement": "Each match received is accepted or rejected, exactly one outcome of the draw in a hundred rejects, and the tickets queued again are exactly those of the rejected matches.", "quantifier": "every sequence of matches and draws", "why_tests_cant": "all sequences, map orders of rosters", "anchors": ["matchmaker-example/main.go:main"]}
{"id": "C102", "title": "What the mock frontend queues for activation was created", "statement": "Every id the mock frontend queues for activation is the id of a ticket it created.", "quantifier": "every reply to CreateTicket", "why_tests_cant": "needs failing calls", "anchors": ["matchmaker-example/main.go:proxyCreateTicket", "matchmaker-example/main.go:main", "core/main.go:ActivateTickets"]}
{"id": "C103", "title": "The example talks to the server it was told to", "statement": "All calls of the example go to the server given by -omhost.", "quantifier": "all values of -conn and -omhost", "why_tests_cant": "all flag values", "anchors": ["matchmaker-example/main.go:main", "matchmaker-example/main.go:proxyCreateTicket"]}
{"id": "C104", "title": "Waits and time limits are as configured", "statement": "The pauses of the two replication loops and the time a function may run are the configured numbers of milliseconds and seconds.", "quantifier": "every value of the settings", "why_tests_cant": "huge and unreadable values", "anchors": ["core/main.go:InvokeMatchmakingFunctions", "core/internal/statestore/cache/replicatedticketcache.go:OutgoingReplicationQueue", "core/internal/statestore/cache/replicatedticketcache.go:IncomingReplicationQueue"]}
{"id": "C105", "title": "Redis is asked to wait as configured", "statement": "Every non-negative number given as the wait of a poll is understood by Redis as this number of milliseconds.", "quantifier": "every value of the setting", "why_tests_cant": "all spellings of numbers", "anchors": ["core/internal/statestore/redis/redis.go:GetUpdates"]}
{"id": "C106", "title": "The idle timeout of Redis connections does not disturb polling", "statement": "A plain number is a number of nanoseconds, units have their usual meaning, and polls are answered whatever the idle timeout.", "quantifier": "every value of the setting, every duration of connecting and replying", "why_tests_cant": "needs slow networks and odd values", "anchors": ["core/internal/statestore/redis/redis.go:New", "core/internal/statestore/redis/redis.go:GetUpdates"]}
{"id": "C107", "title": "The HTTP gateway reaches the gRPC server", "statement": "For every PORT with which the server starts it listens on that port and the gateway of the same process passes requests to it.", "quantifier": "every value of PORT", "why_tests_cant": "all values of PORT", "anchors": ["core/server.go:start"]}
{"id": "C108", "title": "Redis is looked for where configured", "statement": "Reads and writes go to the configured hosts and ports, independently of each other.", "quantifier": "every host and port", "why_tests_cant": "all hosts, IPv6", "anchors": ["core/internal/statestore/redis/redis.go:New"]}
{"id": "C109", "title": "Accepted texts are exactly UTF-8", "statement": "The check that Marshal and Unmarshal apply to every text accepts a byte string exactly if it is the UTF-8 encoding of a sequence of Unicode scalar values (no overlong forms, no surrogates, nothing beyond U+10FFFF). Hence every ticket that was decoded from a request fulfils what CreateTicket needs to store it.", "quantifier": "all byte strings; all bytes of a ticket", "why_tests_cant": "There are infinitely many byte strings; the borderline ones (overlong forms, surrogates) never occur in tests.", "anchors": ["core/main.go:182", "core/main.go:743", "proto/v2/messages.proto:50"]}
{"id": "C110", "title": "Requests, chunks and matches survive the wire", "statement": "Decoding the bytes of an MmfRequest, of a ChunkedMmfRunRequest or of a StreamedMmfResponse gives back the message, field for field, in whatever order the maps were written; and the number of bytes of a chunk is what proto.Size reports, whatever the order.", "quantifier": "all messages with numbers in range for their Go types, all orders of all maps", "why_tests_cant": "Tests encode a few messages in one order; a field that is lost only for special values (-0, unknown enum numbers, empty keys) is not noticed.", "anchors": ["core/main.go:417", "core/main.go:493", "core/main.go:577", "core/main.go:593", "proto/v2/messages.proto:89"]}
{"id": "C111", "title": "What om-core could read it can send on", "statement": "For all bytes received from a function: if om-core can decode a match from them, it can encode that match again and the matchmaker decodes the same match. For all bytes received from a matchmaker and all tickets cached from the replication: every chunk that is built can be encoded and the function decodes exactly that chunk. (The errors of both Send calls are ignored, so an encoding failure would lose the message silently.)", "quantifier": "all bytes of requests, responses and tickets, all orders of maps, all splits into chunks", "why_tests_cant": "Errors of Send are dropped by the code, so a test cannot see a failure; the set of byte strings a peer may send is infinite.", "anchors": ["core/main.go:493", "core/main.go:577", "core/main.go:451", "mmf/server/server.go:70"]}
{"id": "C112", "title": "Who hears about deactivated tickets", "statement": "When an invocation has returned and all its functions ended normally, every ticket it deactivated was in a match that its caller received. (Refuted: a caller that hangs up stops nothing; the errors of stream.Send are ignored, the functions go on, and the tickets of matches nobody received become inactive.)", "quantifier": "all functions and what they return, all schedules, all moments of hanging up, both settings of the deactivation wait", "why_tests_cant": "A test would have to cancel a call in the middle and then look at the tickets; the number of interleavings of hang-up, matches and deactivations is unbounded.", "anchors": ["core/main.go:493", "core/main.go:562", "core/main.go:646"]}
{"id": "C113", "title": "What a function reads off the wire", "statement": "Whatever bytes the matchmaker's request and the replicated tickets came in: a function that calls GetChunkedRequest decodes, from the bytes om-core sends, for each pool exactly the tickets that are eligible for it, in snapshot order. (Refuted for many small tickets, whose chunk is over gRPC's 4 MiB; exact otherwise: the function reads the eligible tickets if all messages are within the limit, and an error if not.)", "quantifier": "all request bytes, all cached tickets, all orders of maps in encoding and in visiting pools, all splits into chunks", "why_tests_cant": "It combines the split, the encoding, the limit of the receiver, the decoding and the reassembly; each is tested separately and with few tickets.", "anchors": ["core/main.go:399", "core/main.go:577", "mmf/server/server.go:61", "mmf/server/server.go:70"]}
{"id": "C114", "title": "All functions of a request are invoked", "statement": "Every function listed in a request is looked for at the host and port given in it. (Refuted: one whose type is left out, or is 0, counts as a REST function and is never invoked, while the call still returns without error.)", "quantifier": "all byte strings of requests and function specifications, all invocations", "why_tests_cant": "Tests set the type; the default of the enumeration and repeated or oversized type numbers are not tried.", "anchors": ["core/main.go:532", "core/main.go:528", "proto/v2/messages.proto:174"]}
{"id": "C115", "title": "A damaged value is not taken into the cache", "statement": "A ticket or assignment whose replicated value does not decode is not stored in the cache.", "quantifier": "all values, all caches", "why_tests_cant": "the stores used in tests never return damaged values", "anchors": ["core/internal/statestore/cache/replicatedticketcache.go:189-202", "core/internal/statestore/cache/replicatedticketcache.go:212-217"]}
{"id": "C116", "title": "The cache forgets everything in time", "statement": "Once the ticket TTL and the assignment TTL have passed since the last update, the next expiration cycle leaves nothing of what was created, activated, deactivated or assigned before.", "quantifier": "all configurations, histories of updates and cycles, clock readings and map orders", "why_tests_cant": "it needs ids nobody issued and clocks far ahead", "anchors": ["core/internal/statestore/cache/replicatedticketcache.go:292-338", "core/main.go:233-250", "core/main.go:733-775"]}
{"id": "C117", "title": "No ticket is in two matches of one invocation", "statement": "Of the matches that one InvokeMatchmakingFunctions call passes on to its caller, no two contain the same ticket.", "quantifier": "all numbers and kinds of functions, all matches they return, all interleavings, with and without the deactivation wait", "why_tests_cant": "needs functions that pick the same player and matches with shared tickets at the same time", "anchors": ["core/main.go:366-724", "core/main.go:592-690"]}
{"id": "C118", "title": "A request means the same over HTTP as over gRPC", "statement": "Every request that can be sent over gRPC can also be sent as JSON to the HTTP gateway and is then the same message, extensions included. False as stated: no JSON body stands for a message with an extension of a type the gateway process was not linked with. True of every request whose extensions have known types.", "quantifier": "every request of the API, every extension map, every set of known types, with and without empty fields written", "why_tests_cant": "needs every message and every registry of types; the tests use gRPC and no extensions of foreign types", "anchors": ["core/server.go:55-72", "core/pkg/api/v2/api.pb.gw.go:35-185", "proto/v2/messages.proto:23-26"]}
{"id": "C119", "title": "An HTTP caller sees all matches and assignments", "statement": "A caller of the streaming calls over HTTP receives every message that a gRPC caller would receive, in the same order and with the same content. False as stated: a message with an extension of a type unknown to the gateway ends the stream with an error line and all later messages are lost. Exactly the messages before the first such message are received.", "quantifier": "every sequence of messages, every set of known types", "why_tests_cant": "needs matches with extensions of foreign types; the example's functions attach only linked types", "anchors": ["core/server.go:55-72", "core/pkg/api/v2/api.pb.gw.go:103-185", "core/main.go:485-500"]}
{"id": "C120", "title": "A ticket handed out in a match is not offered again", "statement": "When a function has returned a match with a ticket, the match has been sent on to the caller, and the invocation has returned, then later invocations do not get that ticket (unless somebody activates it again): the server deactivates the tickets of a match before it sends the match on. This is what keeps one ticket out of two matches. It is false as stated, with either value of OM_MATCH_TICKET_DEACTIVATION_WAIT: sending on waits for the answer of the state store, not for the local cache, and with Redis a refused deactivation is only logged. It holds for snapshots that begin when everything stored so far has been applied, and with Redis, at every instance, if the deactivations were stored.", "quantifier": "all servers (one with the in-memory store, or a group of instances with Redis), all runs of an invocation with any functions alongside them, all later snapshots", "why_tests_cant": "the window between the answer and the local application, and refused writes, depend on timing and on a failing Redis; tests see one schedule", "anchors": ["core/main.go:366-724", "core/main.go:230-284", "core/main.go:639-642", "core/main.go:648-674", "core/main.go:926-960", "core/internal/statestore/cache/replicatedticketcache.go:74-200"]}
{"id": "C121", "title": "Failed deactivations are logged with their reason and without a data race", "statement": "When tickets of a match can not be deactivated, the log message says why; and the goroutines of an invocation use the variable with the error without a data race (Go memory model: every assignment is ordered with every use by another goroutine).", "quantifier": "for every number of matches, every outcome of connecting and receiving, every result of the deactivations and every interleaving of the function goroutine with its match goroutines", "why_tests_cant": "A race shows only under the race detector and only in a run in which the state store refuses a deactivation while the function is still streaming; what the message says depends on the interleaving.", "anchors": ["core/main.go:521-714", "core/main.go:593", "core/main.go:639-642", "core/main.go:703"]}
{"id": "C122", "title": "Tickets and matches within gRPC's limits", "statement": "A ticket that CreateTicket accepted can be given to functions, and the matches a sample function makes of such tickets arrive at om-core as the function sent them, with the extensions naming profile and function. (Refuted twice. The id and times om-core adds can push a ticket over the 4 MiB of a function's server; then the functions of every profile it is eligible for make no match at all. And a match repeats all its tickets in one message, which can be over the limit although each ticket arrived; then this match and all later ones of the function are lost. Exact otherwise, with ticket sizes at which everything arrives.)", "quantifier": "all accepted tickets, all snapshots, profiles, clocks, map orders in encoding and visiting, all three sample functions", "why_tests_cant": "Tests use small tickets; the limits are far apart in the code (client, om-core, function) and the sum of several messages matters.", "anchors": ["core/main.go:178", "core/main.go:506", "core/main.go:593", "mmf/server/server.go:61", "functions/golang/soloduel/soloduel.go:96", "functions/golang/battleroyale/battleroyale.go:86", "functions/golang/teamshooter/teamshooter.go:113"]}
{"id": "C123", "title": "Tickets of rejected matches return", "statement": "When an invocation has returned and the caller activates a ticket of one of its matches again (with no other deactivation of it later than the invocation, and unexpired), every snapshot that begins once the stored updates are applied contains the ticket. (Refuted: if a function fails, the handler returns without waiting for its match goroutines; with two matches that share the ticket the deactivation for the second can be stored after the activation, although the second match is never delivered. Holds if every function that returned a match with the ticket ended normally; with Redis also every deactivation must have been answered well.)", "quantifier": "for every configuration, both values of the wait setting, every reachable server state, every set of functions, every interleaving of invocation, server, other clients and (with Redis) other instances", "why_tests_cant": "It needs a particular order of an abandoned goroutine and a later client call; a test of one interleaving says nothing about the others.", "anchors": ["core/main.go:508-727", "core/main.go:605-703", "core/main.go:326-389", "core/internal/statestore/cache/replicatedticketcache.go:74-270"]}
{"id": "C124", "title": "The example matchmaker notices failed calls", "statement": "A call of ActivateTickets or CreateTicket that failed is logged as failed by the example matchmaker, and the ids of a failed activation are sent again. (Refuted for activations: over HTTP 'ActivateTickets failed' is never logged, an error status with an empty JSON object as body is not noticed at all, and no id that was queued once is ever in a second call. Exact log lines are given for both modes; errors answered by om-core itself are noticed as unreadable answers; failed creations are logged exactly.)", "quantifier": "all batches of ids, both modes, all outcomes of the HTTP request and all statuses and bodies, all executions of activateTickets", "why_tests_cant": "The repository has no tests of the example; success paths log nothing, so the shadowed variable has no visible effect in runs without faults.", "anchors": ["matchmaker-example/main.go:418-474", "matchmaker-example/main.go:483-512", "matchmaker-example/main.go:635-693"]}
{"id": "C125", "title": "Every call that changes state returns and every ticket created and activated becomes active", "statement": "In every unending execution in which no goroutine of the instance is held up for ever (each kind of step of the outgoing queue, of the incoming queue, of the expiration cycle and of the handlers is taken again and again, or from some time on is never possible), every call that hands updates to the outgoing queue returns; with the in-memory store every update the store has been given is applied to the cache, and a ticket that was created and whose activation was asked for afterwards becomes active, and is from then on active unless a deactivation was applied or it has expired. With Redis the same holds of each instance, for updates appended by any instance, provided its polls are answered again and again and nothing is trimmed that was not read. Such executions exist from every reachable state.", "quantifier": "all configurations (with Redis: with a limit of at least one update per poll), all reachable states, all fair infinite executions with any number of calls and, with Redis, of instances", "why_tests_cant": "No test runs for ever, and eventual delivery is not refuted by any finite run.", "anchors": ["core/internal/statestore/cache/replicatedticketcache.go:74-131", "core/internal/statestore/cache/replicatedticketcache.go:134-359", "core/internal/statestore/memory/main.go:48-95", "core/internal/statestore/redis/redis.go:101-311", "core/main.go:144-227", "core/main.go:230-284"]}
{"id": "C126", "title": "Every invocation comes to its end and the tickets of its matches are retired", "statement": "In every unending execution in which neither a goroutine of the invocation nor one of the server is held up for ever, the handler of an invocation returns, all goroutines it started end, and every match received has been passed to stream.Send, at most one of them after the handler had returned if no matchmaking function failed. A ticket that was created before its match was received, and that is not activated again, is from some time on in no snapshot that a later invocation works on; with Redis this holds at every instance whose polls are answered, if Redis took the deactivations and nothing was trimmed that was not read. A server whose goroutines are not held up does not outlive a match without tickets. Every run that came to its end without a crash is the beginning of such an execution.", "quantifier": "all configurations, all reachable states of the server, all lists of matchmaking functions, all fair infinite executions of the invocation together with its server, any number of matches, calls and, with Redis, instances", "why_tests_cant": "No test runs for ever; that something happens eventually is not refuted by any finite run, and the tests of the repository start no invocation.", "anchors": ["core/main.go:369-562", "core/main.go:575-719", "core/internal/statestore/cache/replicatedticketcache.go:74-131", "core/internal/statestore/cache/replicatedticketcache.go:134-359", "core/internal/statestore/redis/redis.go:101-311"]}
{"id": "C127", "title": "The metrics keep few time series whatever clients send", "statement": "Whatever requests arrive, at most a thousand time series (combinations of a metric and its attribute values) are kept by om-core.", "quantifier": "all configurations, all lists of calls that clients can send (update requests that fit into a 4 MiB message, message lengths of 32 bits, any function names), all store answers, clock readings and map orders", "why_tests_cant": "The tests never look at the metrics, and no test can send every request.", "anchors": ["core/server.go:107-143", "core/main.go:288-353", "core/main.go:366-374", "core/main.go:693-700", "core/metrics.go:60-168"]}
{"id": "C128", "title": "A server that can not serve ends and says why", "statement": "If listening, serving gRPC, registering the gateway or serving HTTP fails and no signal has come, the process ends with status 1 once it has done all it does by itself, and logs an error that did occur.", "quantifier": "all interleavings of start and its two goroutines, all failures with all error texts at all times, signals at all times", "why_tests_cant": "No test starts the server, and the loss needs one goroutine to be held up between two instructions.", "anchors": ["core/server.go:27-77", "core/main.go:110-124"]}
{"id": "C129", "title": "Work for a caller that has gone is not done", "statement": "A call that its caller gave up before any of its updates was taken is not executed any more, and a watch whose caller has gone ends by itself. (Refuted: every update of every call is stored and applied all the same under fair scheduling; a watch ends by itself exactly when its time is over or all tickets it still looks for have assignments; callers that go away change nothing.)", "quantifier": "all configurations, all executions of the server with callers going away at any moments, all watches", "why_tests_cant": "It needs a caller that goes away in the short time between its request and the moment when the queue takes the update, and a claim about what never happens.", "anchors": ["core/main.go:205-221", "core/main.go:256-275", "core/main.go:755-780", "core/main.go:805-872", "core/internal/statestore/cache/replicatedticketcache.go:38-45"]}
{"id": "C130", "title": "Waiting for goroutines never panics", "statement": "The WaitGroups that count goroutines never panic; when Wait returns, all counted goroutines have ended. (True of mmfwg and tdwg in the core, whose Wait moreover always returns. Refuted for activationWg of the example, where the started goroutine itself calls Add: a panic, which ends the process, is possible exactly when more than 500 ids arrive.)", "quantifier": "all numbers of goroutines, all interleavings of their Add, Done and Wait operations down to the single atomic steps, all queues of ids", "why_tests_cant": "The panics need an Add within the few instructions between two atomic operations of a Done or between the wake-up of Wait and its check.", "anchors": ["matchmaker-example/main.go:385-481", "core/main.go:484", "core/main.go:517-522", "core/main.go:720", "core/main.go:584", "core/main.go:625-627", "core/main.go:703"]}
{"id": "C131", "title": "Every watch ends, and an assignment made for a watched ticket reaches its watcher", "statement": "In every fair execution a watch ends once time passes, and a ticket of the watch that any CreateAssignments call assigns, before or during the watch and with Redis at any instance, is answered, unless the watch times out or an expiration cycle found the ticket older than ticket TTL plus assignment TTL. When all ids of the watch are assigned, it returns without an error after exactly one answer per id.", "quantifier": "all configurations, all servers beside the watch, all sets of ids, all infinite executions with both stores that are fair to the goroutines of the watch and of the server", "why_tests_cant": "A liveness claim: it is about what must happen eventually under every fair schedule, with other calls, expiration cycles and other instances interleaved at any point.", "anchors": ["core/main.go:796-871", "core/main.go:755-780", "core/internal/statestore/cache/replicatedticketcache.go:90-216", "core/internal/statestore/cache/replicatedticketcache.go:219-285"]}
{"id": "C132", "title": "Session guarantees: what a client that makes several calls may rely on", "statement": "A client is told OK and then makes its next call, at the same or another instance: its updates are replicated in the order of the calls (monotonic writes); a snapshot begun after ActivateTickets was told OK contains the ticket (read your writes); a ticket seen in a snapshot and not deactivated is in the later snapshots (monotonic reads); an update of a call comes, at every instance, after everything that was visible when the call began (writes follow reads).", "quantifier": "all configurations, all numbers of instances, all interleavings of calls, replication and expiration, with both stores, and all failures of connections to Redis", "why_tests_cant": "The guarantees fail only for particular interleavings of the answer, the replication loops and the snapshot, or when a command of a broken connection is executed late; tests that wait between calls never see it.", "anchors": ["core/main.go:175-283", "core/main.go:391", "core/main.go:947-959", "core/internal/statestore/cache/replicatedticketcache.go:74-216", "core/internal/statestore/redis/redis.go:101-309", "core/internal/statestore/memory/main.go:57-94"]}
{"id": "C133", "title": "Stopping, killing and replacing instances loses nothing that was acknowledged", "statement": "Whatever is done to the instances (SIGTERM or SIGINT, kill, start of new ones): a client that was given its answers keeps them; what it was told is stored stays stored, and a ticket that was created and activated is active in every instance that has read the history, also when the instances that took the calls are gone; a call that is cut off takes effect at most once and never after the server has dealt with the connection; the remaining instances can answer all their calls. A stop waits for the calls in flight, and a call that is cut off changes nothing. With the in-memory store, the tickets are kept over a restart and no id is issued twice.", "quantifier": "all configurations, all numbers of instances, all moments at which instances are stopped, killed and started, all interleavings and failures of connections to Redis", "why_tests_cant": "It depends on the moment of the stop relative to the steps of handlers, replication and Redis server; the repository has no test that stops a process.", "anchors": ["core/server.go:31-37", "core/server.go:74-76", "core/main.go:89-91", "core/main.go:106-135", "core/internal/statestore/memory/main.go:31-38", "core/internal/statestore/memory/main.go:96-108", "core/internal/statestore/redis/redis.go:101-197"]}
{"id": "C134", "title": "om-core and a matchmaking function do not wait for each other", "statement": "Whatever a matchmaking function does and however the two are scheduled: matches arrive in order and none is lost, chunks are read in order, no execution goes on for ever, and an execution never comes to a standstill before the end of the stream, i.e. om-core and the function never wait for each other. A function may read its request until the end of the stream.", "quantifier": "all requests, functions (lists of reads and sends), capacities of the two directions and interleavings", "why_tests_cant": "Whether two processes can wait for each other depends on sizes of buffers and schedules; tests use small requests, which fit.", "anchors": ["core/main.go:576-579", "core/main.go:590-603", "mmf/server/server.go:GetChunkedRequest"]}
{"id": "C135", "title": "Debug pages are served only to the machine itself", "statement": "The profiling pages of net/http/pprof (heap, goroutines, command line, CPU profiles), which main serves at localhost:2224, are never served to a caller on another machine, whatever the port, the method and the path.", "quantifier": "all ports, methods and paths (decoded)", "why_tests_cant": "Which paths are served depends on side effects of imports, redirects and spellings of paths; a test tries a few.", "anchors": ["core/main.go:81-84", "core/metrics.go:84-93", "core/server.go:57-71"]}
{"id": "C136", "title": "A scrape of the cache gauges reports one expiration cycle", "statement": "The three numbers that one scrape of the metrics reports for the cache (active tickets, inactive tickets, assignments) are those of one expiration cycle; the number of active tickets is never negative if no cycle saw more inactive ids than tickets; and the variables they are read from are not written at the same time.", "quantifier": "all sequences of tallies and all interleavings of cycles and scrapes", "why_tests_cant": "A scrape must fall between two assignments; tests do not scrape during a cycle.", "anchors": ["core/internal/statestore/cache/replicatedticketcache.go:341-343", "core/internal/statestore/cache/metrics.go:94-106"]}
{"id": "C137", "title": "A request body is read exactly if it is a JSON text", "statement": "The gateway takes a body as a request only if the whole body is one JSON text (RFC 8259); the example reads a line exactly if it is a JSON text, with the one value the text stands for; what the gateway writes for a value, in either spelling protojson uses, is read back as that value; and no beginning of a line that was cut off is read as another value.", "quantifier": "all texts (lists of code points) and all JSON values", "why_tests_cant": "Tests decode a few well-formed texts; escapes, surrogates, delimiters after numbers and trailing text need a grammar.", "anchors": ["core/pkg/api/v2/api.pb.gw.go:35-185", "matchmaker-example/main.go:285-318", "core/server.go:53-62"]}
{"id": "C138", "title": "Requests and matches survive the way over HTTP as bytes", "statement": "Every request of the API that protojson can write (UTF-8 texts, times in range, types of extensions both sides know) becomes bytes from which the gateway reads exactly that request, in both spellings of protojson and whatever follows the body; the gateway takes bytes as a request exactly if they are white space (the empty request) or begin with the UTF-8 of a JSON text that stands for one; matches sent back are received by the example as sent as long as no text in them has a space, and with the first such text the example ends; the UTF-8 check is that of the Unicode standard.", "quantifier": "all requests, matches, byte strings and codecs of numbers, times and extensions", "why_tests_cant": "Round trips in tests use ASCII and a few types; UTF-8 ranges, escapes and what follows a body need all byte strings.", "anchors": ["core/pkg/api/v2/api.pb.gw.go:35-185", "matchmaker-example/main.go:285-318", "core/server.go:53-62"]}
{"id": "C139", "title": "A failed call of InvokeMatchmakingFunctions does not derail the example", "statement": "Whatever becomes of the call of a cycle, the example matchmaker does not crash; if it goes on, it is with exactly the matches om-core sent; and the line about the cycle tells an error exactly if there was one.", "quantifier": "all answers over gRPC and HTTP, all lists of matches, all errors (code, message, details)", "why_tests_cant": "Tests of the example would need failing servers, streams that fail half-way and errors with particular texts.", "anchors": ["matchmaker-example/main.go:224-344", "core/server.go:53-62", "core/main.go:388-420"]}
{"id": "C140", "title": "The mock frontend makes the tickets it was told to make and has each activated once", "statement": "With -dur d and -tix n the mock frontend starts n players in each of d seconds, never more than n in a second; it creates tickets at no greater rate; every id that comes back is in exactly one call of ActivateTickets of 1 to 500 ids; it never gets stuck, and under fair scheduling all of this is done in the end.", "quantifier": "every number of seconds and tickets, every interleaving of the generator, the players, the activator and the activation calls, every timing", "why_tests_cant": "needs all interleavings of thousands of goroutines around a channel of 10000 places", "anchors": ["matchmaker-example/main.go:Run", "matchmaker-example/main.go:activateTickets", "matchmaker-example/main.go:proxyCreateTicket"]}
{"id": "C141", "title": "Times pass over HTTP exactly", "statement": "Every time a Timestamp can hold is written by protojson as the RFC 3339 text of that time in UTC with 0, 3, 6 or 9 digits of fraction and read back as it was; the texts that are read, and the time each stands for, are exactly those of a grammar that also takes one-digit hours, fractions after a comma and any two digits for hours and minutes of the zone; dates are those of counting days in the Gregorian calendar.", "quantifier": "all timestamps, all texts, all days (of any year)", "why_tests_cant": "Round trips in tests cover a few dates; leap years, centuries, day boundaries, trimming and what else is accepted need all dates and texts.", "anchors": ["core/pkg/api/v2/api.pb.gw.go:35-185", "proto/v2/messages.proto", "core/server.go:53-62"]}
{"id": "C142", "title": "Ids of matches differ between runs of the sample functions, wherever they run", "statement": "In any time zone, two runs of a sample function that read the clock in different hundredths of a second never give two matches the same id.", "quantifier": "all zones (offset as a function of time), clocks, pools and functions", "why_tests_cant": "Ids collide only when clocks are put back, once a year, and needs the local calendar to be right for all times.", "anchors": ["functions/golang/soloduel/soloduel.go:81", "functions/golang/battleroyale/battleroyale.go:79", "functions/golang/teamshooter/teamshooter.go:115"]}
{"id": "C143", "title": "Whole numbers over HTTP", "statement": "In a JSON request a whole number (the port of a matchmaking function) may be written in any form of RFC 8259. It is taken exactly if it stands for a whole number that an int32 can hold, and then as that number; but a number other than 0 is also refused if its exponent does not fit an int32 or if it begins with 0 and its exponent is above 20 (0.000000000000000000001e21). In quotes, every text is taken that begins with such a number and does not go on with a letter, digit or one of + - . _, whatever comes then (\"8080,x\", \"80:81\", \"1e,\"); only white space at the very end is refused. What the client library writes is read as it was.", "quantifier": "all number texts, all UTF-8 texts, all int32", "why_tests_cant": "a test tries some spellings; the claim is about every text", "anchors": ["core/main.go:388-420", "core/pkg/api/v2/api.pb.gw.go:35-185", "proto/v2/messages.proto", "matchmaker-example/main.go:260-265"]}
{"id": "C144", "title": "Doubles over HTTP", "statement": "A number in a JSON request is read as the double nearest to it (ties to the even one) and refused exactly if it is at least half a unit in the last place above the greatest double. Every finite double is written as a JSON number that is read back as exactly that double, with the fewest digits for which this holds and among those a nearest one, without exponent from 1e-6 up to 1e21 and otherwise with an exponent without leading zeros. Hence tickets, requests and assignments pass through the gateway byte for byte with no assumption about how the library writes numbers and times.", "quantifier": "all number texts (with more than 9000 digits only exponents below 100000), all finite doubles, all requests", "why_tests_cant": "there are 2^64 doubles and infinitely many texts; rounding errors show up for few of them", "anchors": ["core/pkg/api/v2/api.pb.gw.go:35-185", "proto/v2/messages.proto", "matchmaker-example/main.go:260-265", "core/internal/filter/filter.go:60-110"]}
{"id": "C145", "title": "Failures reach the caller, over gRPC and over HTTP", "statement": "The status with which a call ends reaches its caller unchanged (code, message and the list of ticket ids with the reasons), over gRPC and, as a JSON object with the HTTP status for the code, over HTTP; only in a message that is not UTF-8 each bad byte is replaced by U+FFFD. The trailers can be sent whatever the texts are, and the gateway can write every status that it gets.", "quantifier": "all statuses of representable size, all sets of violations that om-core makes, all callers", "why_tests_cant": "texts come from Redis and from clients; escapes matter for few bytes", "anchors": ["core/main.go:309-353", "core/main.go:895-924", "core/main.go:219-222", "core/server.go:53-72"]}
{"id": "C146", "title": "The metrics page says what was recorded", "statement": "The page at /metrics can be read in one way only, and has exactly one sample for everything recorded, with the right number, and no other: for every kind of call the number of ended calls, how many took at most 0, 5, ... 10000 ms, the sum of their durations (each time rounded to the nearest double) and the number of failures by text; the sizes of activations, deactivations and assignments; the watches; the matches by function; the three gauges; the durations of expiration cycles, whose sum is exact. Names are valid and differ. (That every registered metric can appear is false: three of om-core's and two of the example's never do.)", "quantifier": "all recorded values, all texts of errors and names of functions, all sequences of ended calls", "why_tests_cant": "numbers are doubles; label values come from clients and need escapes; bounds of buckets", "anchors": ["core/metrics.go:39-168", "core/internal/statestore/cache/metrics.go:41-107", "matchmaker-example/metrics.go:15-94", "core/server.go:107-143"]}
{"id": "C147", "title": "A matchmaking function is reached if one of its addresses accepts", "statement": "The call of a function is open or has failed within OM_MMF_TIMEOUT_SECS, whatever its addresses do. It is open if some address accepts within an equal share of the time and there are two seconds for each; and soon if the addresses before it refuse. Functions that refuse are given up at once, silent ones after the whole limit; without time there is no connection. (That one working address is always enough, or enough to be reached soon, is false: the connection has the limit of the whole call, and each silent address takes an equal share of it.)", "quantifier": "all lists of addresses of both families, their answers and delays, all time limits and clocks", "why_tests_cant": "dead addresses and their order; time limits of minutes", "anchors": ["core/main.go:505-511", "core/main.go:545-568"]}
{"id": "C148", "title": "The last line of the log counts the cache", "statement": "The last line of om-core's log can be read back, and its numbers are those of tickets, of tickets that are not inactive, of inactive ids and of assignments at the moments of reading. Tickets and inactive ids without a ticket together are the active and the inactive ones. (That tickets = active + inactive, or that no more are active than there are while updates are still applied, is false.)", "quantifier": "all states of the cache, all updates in between", "why_tests_cant": "ids without tickets; updates during the shutdown", "anchors": ["core/main.go:129-135", "core/main.go:932-959"]}
{"id": "C149", "title": "The log of an invocation tells what was done", "statement": "At debug level the log of an invocation determines the profile's name, how many tickets were looked at, how many ids were inactive without assignment, how many pools there were and how many of them were valid, and how many chunks each function is sent; at info level the name, the first two numbers and the number of invalid pools. Each invalid pool has one line with its reason at the levels error to trace. (That the log names the invalid pools, that no format directive is left in its texts, and that the second number counts tickets are false.)", "quantifier": "all profiles, snapshots, orders of the pools, caches, log levels", "why_tests_cant": "all combinations of pools and levels; texts of logs are not looked at by tests", "anchors": ["core/main.go:376-443", "core/internal/filter/filter.go:34-49"]}
{"id": "C150", "title": "The log says how the call of each function ended", "statement": "At debug level the lines of a function's goroutine determine how its call ended, its address, its name unless its type is REST, and number and sizes (to hundredths of a megabyte, correctly rounded) of the messages it was sent. (False: that each failure is logged as an error - one that is not reached is not, the log only says that om-core is connected; that the log says why a function failed; that errors name the function.) Exactly which failures are logged, with their reason and with the function's name, is proved.", "quantifier": "all functions, addresses, sizes of chunks, ends of calls and their errors, log levels", "why_tests_cant": "failures of every kind with their log lines", "anchors": ["core/main.go:520-714"]}
{"id": "C151", "title": "An invocation is over in bounded time", "statement": "An invocation of functions is over within the time limit of the functions, the longest deactivation of a match's tickets, 100 ms and the time it takes to send all matches; within the limit if the functions that end normally return no matches; exactly when the last function and, 100 ms after its deactivation, the last match of a function that ended normally is done, if sending takes no time, whatever OM_MATCH_TICKET_DEACTIVATION_WAIT is. (False: that it is over within the limit, or within any time that depends on the limit only.) One function whose addresses say nothing holds it for the whole limit; a match waits for no more than the sending of the others; all matches of functions that end normally are handed over before it is over.", "quantifier": "all numbers of functions, addresses, times of matches, deactivations and sends, orders in which matches are taken, limits", "why_tests_cant": "timings of many functions and a slow caller", "anchors": ["core/main.go:480-500", "core/main.go:506-511", "core/main.go:513-723"]}
{"id": "C152", "title": "Updates are in the cache in bounded time (in-memory store)", "statement": "Each update that the in-memory store has taken is applied to the cache within OM_CACHE_IN_WAIT_TIMEOUT_MS, plus a round (that time again, an expiration cycle, a look at the channel) for each OM_CACHE_IN_MAX_UPDATES_PER_POLL updates ahead and one more, plus the time to apply those ahead and itself, however many updates follow; in the order in which they were taken. (False: that it is in the cache after OM_CACHE_IN_WAIT_TIMEOUT_MS.) Twice that time is reached for each value, so the 100 ms after which om-core looks whether a match's tickets are deactivated suffice exactly for settings up to 50 ms; with the default it may take three seconds.", "quantifier": "all settings with a waiting time and a buffered channel, all sequences of updates and timings", "why_tests_cant": "orders of timers of two goroutines", "anchors": ["core/internal/statestore/memory/main.go:48-70", "core/internal/statestore/cache/replicatedticketcache.go:144-228", "core/main.go:648-667"]}
{"id": "C153", "title": "Updates are in the cache of each instance in bounded time (Redis)", "statement": "Each update in the replication stream that has fewer than OM_CACHE_IN_MAX_UPDATES_PER_POLL others ahead of it at an instance is applied there within three network times, OM_CACHE_IN_WAIT_TIMEOUT_MS, an expiration cycle, a look at the channel and the time to apply those ahead and itself, however many updates follow; each with more ahead of it is applied within a bound that grows by a question to Redis and three rounds of the loop per OM_CACHE_IN_MAX_UPDATES_PER_POLL of them; in the order of the stream. If work and network take no time the exact bound is OM_CACHE_IN_WAIT_TIMEOUT_MS, so the 100 ms after which om-core looks whether a match's tickets are deactivated suffice exactly for settings up to 100 ms (the default is 1500 ms).", "quantifier": "all settings with a waiting time and a buffered channel, all sequences of updates of all instances and all timings", "why_tests_cant": "orders of timers and network delays", "anchors": ["core/internal/statestore/redis/redis.go:232-309", "core/internal/statestore/cache/replicatedticketcache.go:144-228", "core/main.go:648-667"]}
{"id": "C154", "title": "From a request to the cache in bounded time (in-memory store)", "statement": "Updates are handed to the store in the order of the requests, each once, and a request is answered only after that. While fewer than OM_CACHE_IN_MAX_UPDATES_PER_POLL updates are on their way, each request is answered within OM_CACHE_OUT_WAIT_TIMEOUT_MS and its update is applied to the cache within OM_CACHE_OUT_WAIT_TIMEOUT_MS plus twice OM_CACHE_IN_WAIT_TIMEOUT_MS plus the time of an expiration cycle and of applying those ahead; the bound is reached (3.5 s with the default settings). With the channel full an answer can take longer, as it waits for the cache.", "quantifier": "all settings with waiting times and a buffered channel, all sequences of requests and all schedules of the three loops", "why_tests_cant": "orders of three unsynchronised timers", "anchors": ["core/internal/statestore/cache/replicatedticketcache.go:74-228", "core/internal/statestore/memory/main.go:32-94"]}
{"id": "C155", "title": "From a request to the cache of each instance in bounded time (Redis)", "statement": "The requests of answered batches were dealt with in their order. What is in the stream is the update of the request, complete, a new ticket with the id of its entry, added between the request and the latest moment of its answer (C87). Each such update with fewer than OM_CACHE_IN_MAX_UPDATES_PER_POLL ahead of it at an instance is applied there at most three network times, OM_CACHE_IN_WAIT_TIMEOUT_MS, an expiration cycle and the time to apply those ahead after that; with more ahead of it within a longer bound. If work and network take no time, the sum of the two waiting times is the exact bound (2 s with the default settings).", "quantifier": "all settings with waiting times and a buffered channel, all sequences of requests at all instances, all schedules of the loops, any updates lost to errors", "why_tests_cant": "orders of unsynchronised timers of several processes", "anchors": ["core/internal/statestore/cache/replicatedticketcache.go:74-228", "core/internal/statestore/redis/redis.go:101-309"]}
{"id": "C156", "title": "Updates are in effect at every moment after a time limit", "statement": "For every request whose update is handed to the store, at every moment after the time limit of C154 (in-memory store) or C155 (Redis, each instance): an activated ticket is active in the cache with the contents it was created with, unless it was deactivated or created again later, is too old or has expired; a new or deactivated ticket is not active unless activated later; an assigned ticket has this assignment unless assigned again later or too old. The cache of the timed loop is what the applied updates leave, with expiration cycles in between whose clock readings are not in the future.", "quantifier": "all configurations, waiting times, durations of work and network, all interleavings of the goroutines, all requests and other updates, all orders of the Range calls", "why_tests_cant": "needs all interleavings of several loops with timers, and all moments after the limit", "anchors": ["core/internal/statestore/cache/replicatedticketcache.go:74-127", "core/internal/statestore/cache/replicatedticketcache.go:134-348", "core/internal/statestore/memory/main.go:48-94", "core/internal/statestore/redis/redis.go:101-309"]}
{"id": "C157", "title": "The replication loops never get stuck", "statement": "From every state that the replication goroutines of om-core can get into, with the in-memory store or with Redis, the process can go on without any further request to any later moment, and there every request is answered, handed to the store in order, and every update that the store took is applied to the cache (with Redis, only updates that SendUpdates refuses need be missing). In particular no state is a deadlock of the two loops, the store's goroutine and the channels, however full the channels are, and the time limits of C87, C88 and C152 to C155 do not hold because time stands still.", "quantifier": "all configurations, positive waiting times, batch thresholds, durations of work and network, channel capacities, all reachable states of the interleaved goroutines, all requests, all moments T", "why_tests_cant": "a deadlock or a loop that spins without time passing shows only in particular interleavings with full channels; tests run a few schedules with nearly empty channels", "anchors": ["core/internal/statestore/cache/replicatedticketcache.go:74-228", "core/internal/statestore/memory/main.go:48-94", "core/internal/statestore/redis/redis.go:101-309"]}
{"id": "C158", "title": "JSON bodies may use either name of a field", "statement": "A JSON body that has, in any messages at any depth, the names that messages.proto gives to fields (ticket_ids, string_equals_filters, expiration_time, ...) instead of their JSON names (ticketIds, ...), in any mixture, is read by the HTTP gateway as the same request, or refused likewise; keys of maps are never taken for names of fields. The same holds of the answers the example reads. So clients that write proto names are understood whenever C118 says the others are. The names of enum values in bodies, aliases included, are exactly those of messages.proto.", "quantifier": "every JSON body, every choice of names at every depth, every registry of types, every request of the API", "why_tests_cant": "needs all combinations of names at all depths; tests use the Go client, which writes one naming only", "anchors": ["core/server.go:55-72", "core/pkg/api/v2/api.pb.gw.go:35-185", "core/pkg/pb/v2/messages.pb.go:40-1500", "proto/v2/messages.proto:50-239", "matchmaker-example/main.go:265-313"]}
{"id": "C159", "title": "What does not matter in JSON bodies", "statement": "Two JSON bodies that differ, in any messages at any depth, in the order of members of messages and of maps, in which of its two names a field has, or in members that are no fields of the message (whatever their values), are read by the HTTP gateway as the same request, or both refused. Quotes around numbers do not matter either. The order of the elements of lists matters.", "quantifier": "every pair of JSON bodies so related, every registry of types, every request of the API", "why_tests_cant": "needs all orders and all foreign members at all depths", "anchors": ["core/server.go:55-72", "core/pkg/api/v2/api.pb.gw.go:35-185", "proto/v2/messages.proto:50-239"]}
{"id": "C160", "title": "What does not matter in protobuf messages", "statement": "Two encodings of a message of the gRPC API or of the calls to matchmaking functions (ticket, invocation request, chunk, result) that differ, in any messages at any depth, in the order of fields with different numbers, in fields whose numbers the message does not have (whatever their values), or in how numbers are encoded, are decoded as the same message, or both refused. So programs built with newer versions of the proto files or with other protobuf libraries are understood. Replicas that get updates with tickets and assignments so encoded (and decodable) hold the same. Among fields with the same number the order counts: the last text wins and lists keep their order.", "quantifier": "every pair of byte strings so related", "why_tests_cant": "needs all orders of fields and all unknown fields at all depths", "anchors": ["proto/v2/messages.proto:50-239", "proto/v2/api.proto:20-82", "core/internal/statestore/cache/replicatedticketcache.go:174-218", "core/server.go:46-54"]}
{"id": "C161", "title": "Which bytes are protobuf messages", "statement": "The decoder used for requests, for answers of matchmaking functions and for tickets in replicas reads exactly the byte strings that the protobuf wire format describes (without groups, which proto3 does not have): fields, each with a key (a field number from 1 to 2^29-1 and a kind) and a value of that kind, with numbers of at most ten bytes and less than 2^64 and lengths that do not go past the end; it finds the fields the string is made of. All other byte strings are refused as any message. Where the error is ignored (replicas), exactly the fields before the first place where no field begins are used. Two messages one after the other are read as the second on top of the first.", "quantifier": "every byte string", "why_tests_cant": "needs all byte strings, among them damaged ones of any length", "anchors": ["core/internal/statestore/cache/replicatedticketcache.go:186-218", "core/main.go:182", "core/server.go:46-54", "proto/v2/messages.proto:50-239"]}
