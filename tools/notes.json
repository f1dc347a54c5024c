{
 "force_partial": [],
 "C02": "False of the code: the comparison is inverted. Exact behaviour proved.",
 "C03": "False of the code for undeclared enum values; proved for the declared ones.",
 "C04": "",
 "C09": "False of the code when the clock goes back to an earlier second; proved otherwise.",
 "C11": "False of the code: the regular expression is not anchored. Exact set of accepted ids proved.",
 "C32": "False of the code: ids without a dash are dropped silently. Exact condition proved.",
 "C33": "Without texts, or when all texts are UTF-8, the call fails iff an update failed (C33_error_iff_failure_partial, C33_told_partial). With Redis, exactly (C33_told_exactly, C33_told_iff): the text of the last failure decides; if it is UTF-8 the client gets one violation, for that id only; if it is not UTF-8, WithDetails fails, the status is nil and the client is told OK (C33_failures_reported_refuted). One violation for each failed id is false (they collapse under one key).",
 "C35": "False of the code: errors are only logged.",
 "C07": "False of the code for client creation times in the future (witness in CacheWitness.v); proved for all others.",
 "C24": "False of the code for client creation times in the future (witness in CacheWitness.v); proved for all others.",
 "C58": "False of the code: ids marked inactive without a ticket are subtracted. Exact value proved.",
 "C14": "False of the code after an invalid update in the same batch; proved for all updates before it, exact answers proved for every batch.",
 "C15": "False of the code when the connection breaks and after an invalid update in the same batch; proved otherwise.",
 "C16": "False of the code: connections are never returned. Exact number of calls that succeed proved.",
 "C26": "False of the code: milliseconds against seconds. Proved that nothing with a Redis id ever expires.",
 "C27": "False of the code: milliseconds against seconds. Proved that no batch ever trims anything.",
 "C29": "False of the code: a ticket created between reading the two maps is sent. Proved for ids not created or deactivated during the snapshot.",
 "C38": "False of the code: tag and length bytes are not counted (108,000 small tickets). Bound on the real size and a sufficient condition proved.",
 "C39": "False of the code: pools arrive with nothing but their participants. Exact contents proved.",
 "C49": "False of the code: a ticket in two pools is matched against itself. Proved when no ticket is in two pools.",
 "C64": "False of the code: numbers beyond 32 bits wrap around instead of falling back. Exact value proved.",
 "C46": "False of the code: an assignment after the watch timed out is sent on a closed channel. Exact condition proved.",
 "C47": "False of the code: a timeout adds the unanswered watches again. Exact value proved.",
 "C65": "Second half proved. First half false of the code for Redis ids (milliseconds taken for seconds); proved for in-memory ids.",
 "C66": "False of the code after a timeout; proved that this is the only case.",
 "C41": "The full claim is refuted (witness: the handler returns while the fan-in goroutine is still in stream.Send, with either setting of the deactivation wait). Proved instead: at most one match is missing.",
 "C42": "Refuted with two independent witnesses: a match without tickets (index -1) and a function failing after it delivered a match (send on closed channel). Proved: these are the only causes of a crash.",
 "C43": "Refuted: deactivationCheck looks once at the last ticket only and its outcome is not used. Proved: with the wait on each streamed match has a ticket and all deactivations were answered by the store; the check never holds a match back.",
 "C44": "Refuted: errors of the function goroutines are dropped (e.g. a REST function), the call returns nil. Proved: the only errors are the two validation errors.",
 "C56": "Refuted: the loop variable starts at 1, so every function that ends normally adds one too many. Proved: the exact value of the counter.",
 "C67": "Possibility of termination (deadlock freedom); function goroutines with a 10 minute limit are represented by the environment step V_fail.",
 "C54": "Refuted: the check precedes the increment, so the loop stops on the fourth consecutive empty cycle. That is proved as an exact characterisation.",
 "C55": "Refuted: the loop itself is the only reader of the 10000 place queue it fills. Proved: the exact limit.",
 "C68": "Refuted: activationWg.Add runs inside the goroutine. Proved: no call is between Add and Done at the moment of return.",
 "C69": "Refuted: a gateway error line is counted as an accepted match; texts of fewer than 11 bytes panic. Proved: the exact behaviour, with protojson.Unmarshal as a parameter.",
 "C53": "Arrivals from other goroutines at any time; the calls to om-core themselves are not modelled.",
 "C60": "Clock readings of the in-memory store are assumed not to go back (C09 shows ids can repeat otherwise) and the start time is not before 1970.",
 "C70": "Same assumptions as C60. Progress is stated as: from every reachable state a quiescent state is reachable without further calls.",
 "C61": "Refuted as stated: when the Redis connection breaks, all callers of the batch get the empty id and no error (C61_unique_ids_refuted, C61_names_its_ticket_refuted). Proved for non-empty ids (the two _partial theorems). The rest is proved: common history as prefix (if no XTRIM threshold is above an id in the stream), at most once, only created tickets, active only after activation.",
 "C71": "No restriction on interleavings. Deadlock freedom assumes OM_CACHE_IN_MAX_UPDATES_PER_POLL >= 1 and trims that spare the stream; exhaustion of the connection pool is C16 and not part of this model.",
 "C74": "Refuted (C74_only_activated_refuted): the snapshot copies the inactive set first and the tickets afterwards, so a ticket that is created in between is given to functions although nobody has activated it. True, with one instance and with many, for every ticket that was stored before the snapshot began (C74_only_activated_partial, C74_only_activated_redis_partial).",
 "C75": "An unreadable value is not reported and becomes 0, not the default: with a lifetime of 10m every ticket expires at creation, with such an update limit every activation is rejected. Leading zeros mean octal. Both full claims are refuted; the readings that do hold are proved.",
 "C76": "Refuted: for 010, +5, 25.0 or 0x10 the server reads a number while Redis refuses the command, so no update ever arrives. Whatever Redis accepts means the same here.",
 "C77": "Refuted: another storage type (also Redis with a capital) or a negative poll limit crashes the server; proved that these are the only cases, apart from channel sizes too big for memory, which are not modelled.",
 "C78": "Refuted: an unknown format means text although json is documented, and IsDebugEnabled reads a key that is never set. The actual meaning is proved.",
 "C79": "The watch runs alongside the server (Model/WatchSystem.v) and may find any part of the assignments of the moment. Assignments must be ones protobuf can carry (ValidAssigns).",
 "C80": "As C79. An assignment counts as settled when its answer was good; a call that got an error or an empty id can still be written later, so nothing is claimed about the order of such calls.",
 "C81": "Replaces the assumption of C70/C72 that the ticket is never deactivated; expiry is excluded by hypothesis as there.",
 "C82": "Replaces the assumption of C71/C73 that the ticket is never deactivated; calls that were not acknowledged may still write later, so earlier opposite calls are required to be acknowledged.",
 "C83": "",
 "C84": "Both halves are false of the code when the connection to Redis breaks: the client is then told the empty id without an error (C84_tells_the_id_refuted) although its ticket may have been created (C84_no_id_no_ticket_refuted). Proved: every non-empty id without an error names the ticket, and an error means that nothing was written, now or later.",
 "C85": "False of the code in both halves: an entry of a known kind with a part missing makes the reader index past the end and crash (C85_never_crashes_refuted; C85_crash_iff says exactly when), and the zero value of StateUpdate is the creation of a ticket with the empty id (C85_foreign_ignored_refuted). Proved: the blank ticket is never active and nothing else in the cache changes.",
 "C87": "A goroutine that can run is assumed to run at once; scheduler delays count as part of D. Go's channels serve waiting senders in order.",
 "C88": "False of the code as stated: the 500 ms timer is made anew for every update, so it never ends a stretch (C88_limit_has_no_effect), stretches have no limit (C88_hard_limit_refuted), and under load an expired ticket can stay for any time (C88_gone_in_time_refuted). Proved: the bound with the longest stretch as a parameter, and that stretches are bounded when updates arrive more slowly than they are applied.",
 "C89": "False of the code: host and port are joined to a string that grpc-go reads as a URL, so a host called unix, dns, passthrough or unix-abstract (in any case) is taken for a scheme, and IPv6 addresses without brackets cannot be split again. Proved: for host names and IPv4 addresses exactly those four names fail, targets of different functions differ, brackets make IPv6 work, a missing port fails unless the host contains it. Hosts with other characters (slashes, percent signs) are outside the model.",
 "C91": "Refuted for soloduel and teamshooter: a player eligible for several pools is used once per pool, possibly several times in one match. Proved when no ticket is eligible for two of the function's pools, hence always for battleroyale.",
 "C93": "Refuted: the time in an id is cut off to hundredths of a second, so two runs in the same hundredth repeat ids. Proved for runs in different hundredths and for different functions.",
 "C94": "Refuted: WatchAssignments parses with base 0, so 010-0 is second 8 for a watch and second 10 for the cache. Exact agreement on decimal numerals, both readings of prefixed numerals, and agreement on all issued ids proved.",
 "C63": "Exact, also for requests with the X-HTTP-Method-Override header: a form POST may reach DeactivateTickets, every other call only by its own method.",
 "C95": "Rounding of float64 is left out: a duration is modelled by its whole microseconds.",
 "C96": "Refuted: failed updates are counted as well. Proved: the value is the number of updates sent, and equals the number of successes exactly if the call reports OK (CreateAssignments never reports errors).",
 "C97": "Refuted: the division by 1000.0 is an integer division, so fractions of a millisecond are dropped and cycles under a millisecond are recorded as 0. Exact value proved.",
 "C98": "Refuted: reading stops the process at the first white space inside a string of a result (fmt.Fscanf with %s). C98_exactly_without_spaces_partial characterises exactly when everything is read; C98_fatal_at_first_space_partial says what happens otherwise. C98_builds_agree: the spaces protojson puts after commas in some builds are removed by encoding/json on the way.",
 "C100": "Refuted: battleroyale looks for a pool called competitive, which the example's profile lacks, so in the example it never makes a match (C100_royale_never_partial). C100_solo_partial and C100_team_partial prove the claim for the other two functions, already with two players, or two tanks, two healers and six dps.",
 "C101": "The draw rejects two outcomes in a hundred (rand.Intn(100) <= 1) although the comment says one: C101_one_in_a_hundred_refuted, C101_two_in_a_hundred_partial. The rest is proved in full (C101_matches_sorted, C101_rejected_tickets_queued).",
 "C102": "Refuted: after a failed CreateTicket the empty id is queued. C102_failures_ignored_partial: om-core handles every batch as if the failed creations were not in it.",
 "C103": "Refuted: unless -conn is exactly grpc (the default is http) calls go to localhost:58081. C103_calls_omhost_partial is the exact characterisation.",
 "C104": "Refuted for numbers of seconds beyond 292 years, which wrap around and leave functions no time; C104_exactly_if_fits_partial is the exact condition. C104_unit_is_no_time: a value with a unit means no time at all.",
 "C105": "Refuted: Redis refuses numbers in other than the usual decimal form, so that no update is ever received; C105_accepted_partial is exact, C105_same_meaning says that both sides agree otherwise.",
 "C106": "The reading of the value is proved in full; that polls are answered is refuted, because the value is also the limit for connecting and for replies (60 means 60 ns). C106_answered_iff_partial is exact, C106_quiet_polls_fail_partial says which limits make quiet polls fail.",
 "C107": "Refuted for PORT=0 and for numbers beyond 2^32, which net's parsePort wraps around. C107_gateway_iff_partial and C107_listens_partial are exact otherwise. Names of services are not modelled.",
 "C108": "Refuted for plain IPv6 addresses (C108_ipv6_fails_partial); proved for host names and IPv4 addresses (C108_host_names_partial). C108_sides_independent in full.",
 "C109": "Exact: both directions. The size limits of gRPC are not part of it.",
 "C110": "Numbers must be in range for their Go types and messages below 2^64 bytes; decoding of partial messages after an error is not modelled.",
 "C111": "The 4 MiB limit of gRPC (C38) is not part of this; tickets are as the cache stores them (stored_ticket).",
 "C112": "Refuted (a caller that hangs up). Proved: the exact relation between runs with and without a hang-up; what is delivered is a prefix of what was sent; a caller that stays is told about everything but C41's last match. A match sent while the caller is there counts as delivered.",
 "C113": "Refuted by C38's 108,000 small tickets. Proved: the exact outcome for every request (eligible tickets, or an error if a message is over the limit), and that larger tickets always arrive. Messages are not compressed and arrive in order.",
 "C114": "Refuted (type left out). Proved: exactly the functions with a type other than 0 modulo 2^32 are looked for; matches come only from those; the others count as failed and the call returns nil.",
 "C115": "Refuted: every announced ticket is stored, inactive, whatever its value. Exact: a value that decodes is stored as what it decodes to; one that is damaged behind whole fields as what those fields say.",
 "C116": "Refuted: clients can deactivate and assign ids the store never issued, with any number; such entries stay until the clock passes that number, so some for ever. Proved for all ids whose number is not in the future.",
 "C117": "Refuted: two functions (or one function twice) can put the same ticket in a match each and both matches are passed on. Proved: any matches with tickets can all be passed on whatever they share, and each one passed on is one answer of a function.",
 "C118": "Refuted as stated (C118_every_ticket_over_http_refuted): an extension whose type the gateway process does not know has no JSON form. C118_same_request_partial proves that all requests of the API are read as written when both sides know the types; C118_writable_iff and C118_only_known_extensions are exact about what can be written and read. Numbers, times and the type registry are parameters of the model.",
 "C119": "Refuted as stated (C119_sees_every_match_refuted). C119_all_received_partial, C119_until_first_partial and C119_error_iff say exactly what arrives.",
 "C120": "Refuted as stated, with witnesses for both stores and both values of the wait setting (C120_handed_out_once_refuted: the deactivation is answered but not applied; C120_handed_out_once_redis_refuted: Redis refuses the deactivation, which is only logged). Proved for snapshots that begin when all stored updates have been applied (in-memory), and for any caught-up instance if the deactivations were stored (Redis).",
 "C121": "Both parts refuted with an execution (C121_no_race_refuted, C121_names_error_refuted): the match goroutine logs the function goroutine's variable err (:641) instead of its own errs, while the function goroutine assigns to it (:593). C121_race_iff says exactly which executions have a race, C121_every_message_races that every finished execution with such a message has one, C121_no_race_partial that without failed deactivations there is none. C121_message_value and C121_nil_or_later_outcome say exactly what the message contains; C121_names_error_partial that there is one only after a failure.",
 "C122": "Refuted twice (C122_tickets_offered_refuted, C122_matches_arrive_refuted). Exact: C122_matches_received and C122_first_too_large say what arrives; C122_one_ticket_spoils_all; restrictions that hold with _partial (sizes of tickets). Missing from the full claim: tickets and matches over 4 MiB, for which it is false.",
 "C123": "Refuted with runs in both stores (C123_rejected_tickets_return_refuted, C123_rejected_tickets_return_redis_refuted). The _partial theorems prove it when every function that returned a match with the ticket ended normally (with Redis: and the deactivations got good answers). Missing: functions that fail, for which it is false.",
 "C124": "Refuted: C124_failed_activation_logged_refuted, C124_failed_activation_noticed_refuted, C124_failed_activation_repeated_refuted. C124_failed_activation_logged_partial and C124_activation_http_exact say exactly what is logged; C124_failed_activation_noticed_partial that om-core's own errors are noticed over HTTP; C124_failed_creation_logged and C124_creation_omcore are exact for CreateTicket; C124_one_attempt that a queued id is in one call only. Missing from the full claim: activations over HTTP and repeated attempts, for which it is false.",
 "C125": "Fairness is an assumption about the Go scheduler, the timers and the store, stated in Spec/FairSpec.v. It says among other things that every Redis command is answered some time or fails: the connection is used without a read timeout. The existence theorems show that the assumptions are not contradictory; C125_example_unfair shows that without them a call need not return.",
 "C126": "Fairness of the invocation is stated in Spec/FairInvokeSpec.v: the stream of a function ends at the latest by its timeout, stream.Send returns, and the Go scheduler holds up no goroutine; that of the server is that of C125. An execution that does not end has no crash in it, so the theorems are about servers that do not crash; C126_*_empty_match_fatal says which matches they cannot have received. Existence of such executions is C126_*_fair_exists.",
 "C127": "Refuted: the error text is an attribute of the error counter and has the number of ids asked for (C127_series_per_count: up to 2096652 series per method with the default limit) or the length of an oversized message (C127_series_per_length: a 5-byte header is enough, up to 2^32 - 4194305 per method); the name of a function is chosen by the caller (C127_series_per_name; a comment at main.go:693-699 mentions this one). C127_sources_partial: there are no other sources; C127_few_series_partial: without them there are at most 25 series and one per function name. The texts of grpc-go and the SDK's keeping of every attribute set are modelled from those libraries at the versions in go.mod; error texts for damaged messages, deadlines and cancellations are not modelled.",
 "C128": "Refuted twice: start and its two goroutines share one variable err without synchronisation. If the gRPC server fails before start has assigned the result of registering the gateway to err, the failure can be overwritten by nil: the process then goes on with its HTTP gateway only (C128_failures_end_refuted), or ends with the message <nil> (C128_failures_logged_refuted). The partial theorems show that this is the only case; C128_goes_on and C128_ends_for_a_reason characterise what the process can come to, C128_settles that it gets there. The model takes assignments to err as atomic; the Go memory model gives racy programs less than that.",
 "C129": "Refuted as stated: the Ctx of an UpdateRequest is never read and WatchAssignments never looks at its stream's context. C129_executed_anyway_partial: under fair scheduling every update of every call is applied, given up or not. C129_watch_ends_iff_partial: exact condition for a watch to end by itself. C129_changes_nothing: hang-ups change nothing.",
 "C130": "Refuted for activationWg: Add is called inside the started goroutine, so a late Add meets a Done that is ending (misuse) or a Wait that is waking up (reused). C130_activation_panics_iff_partial: possible exactly when more than 500 ids arrive. For mmfwg and tdwg the full claim holds: C130_core_never_panics, C130_core_waits_for_all, C130_core_wait_returns.",
 "C131": "Infinite executions of a watch beside a server (in-memory or Redis). Fairness: each goroutine of the watch, the queue goroutines and the call are scheduled infinitely often when enabled (Spec/FairWatchSpec.v); with Redis every poll is answered and the stream is not trimmed before it is read. That such executions exist for every finite execution to a normal end is proved too, so the theorems are not vacuous. Losing an assignment to the TTL is a disjunct, not excluded.",
 "C132": "Writes follow reads holds in full. Monotonic writes is refuted: after a broken connection a call is told OK and its XADD can be executed after that of the next call; proved for calls whose answers all carry an id, and for every call with the in-memory store. Read your writes is refuted for both stores: the answer comes before the instance has applied its own update; proved from the moment it is applied, with the converse. Monotonic reads: what is applied is never taken back, and an active ticket stays in all snapshots of its instance; refuted for tickets that a snapshot shows before they are active, and across instances.",
 "C133": "With Redis: answers are kept, what was acknowledged with an id stays stored, tickets outlive the instances that took the calls, cut-off calls take effect at most once and only with accepted updates, nothing comes after the connection has been dealt with, and the others can go on: proved for every pattern of stops, kills and starts. Refuted: that Stop lets the calls in flight finish (grpc Stop does not wait for handlers), that a call that was cut off has changed nothing, and, with the in-memory store, that tickets are kept over a restart and that ids are not issued again (a restart within the second of the last id repeats ids); ids are proved different when the restart is in a later second.",
 "C134": "Order, finiteness and the end are proved for every function. No standstill is false of the code (C134_never_stuck_refuted: om-core sends the whole request before it receives; a function that answers while it reads can block both until the deadline of 10 minutes) and so is reading to the end (C134_request_ends_refuted: om-core never calls CloseSend). Exactly when it holds: C134_never_stuck_iff, C134_can_end_iff; it holds for the sample functions (C134_samples).",
 "C135": "False of the code (C135_debug_is_local_refuted): the metrics listener at :2223 serves the same http.DefaultServeMux. Exactly which requests from other machines get which page: C135_remote_partial, C135_remote_exactly, C135_served_exactly.",
 "C136": "False of the code (C136_one_cycle_refuted, C136_not_negative_refuted, C136_no_race_refuted: plain global variables, read and written without synchronisation). Exactly which reports are possible: C136_reports_exactly; a scrape between two cycles is right: C136_quiet_partial.",
 "C137": "The claim about bodies is false of the code: grpc-gateway's decoder reads one value and does not look at what follows (C137_bodies_are_json_refuted, witness '{} }'); C137_bodies_exactly_partial says exactly which bodies are taken. The other parts hold without restriction (C137_texts_exactly, C137_one_value, C137_read_back, C137_cut_off, C137_stream_decodes).",
 "C138": "Composes C118 (messages as JSON trees), C137 (grammar) and C98 (the example's lines) over bytes. Assumed of the library (WritesJson, Agree): finite doubles are written as JSON numbers and read back, times likewise, registered types write JSON that can be written; a codec with these properties is given in the example.",
 "C139": "Refuted three times: without an answer the example reads a field of a nil response (:285) and panics; over HTTP an error line without spaces is counted as a match; the error in the cycle's line is always that of grpc.Dial, nil. The _partial theorems say exactly what happens over gRPC and over HTTP (which calls end the process, which are counted, which errors go unnoticed). A body that breaks off never lets the cycle go on, and a cut-off answer of the gateway ends it without a crash.",
 "C140": "Everything but the rate of creation is proved (C140_as_many_as_wanted, C140_starts_not_faster, C140_each_id_once, C140_never_stuck, C140_all_sent_for_activation; C140_fair_executions shows that fair executions exist from every reachable state). The rate of creation is refuted (C140_created_not_faster_refuted): the rate limits the starts of goroutines, whose calls may be late and come together.",
 "C141": "The calendar of Go's time package, RFC 3339 writing and the general parser are modelled; the calendar is proved against counting days, writing and reading against a grammar. The fast path of Go's parser (same results on the texts it takes) is not modelled separately.",
 "C142": "Refuted: stamps in ids are local time without zone, so where clocks are put back an hour comes twice. Proved as long as the local clock shows different hundredths, hence in every fixed zone; when stamps agree is exact for all times (_partial).",
 "C143": "Exact: read_int on every number text and every UTF-8 text. Finding: quoted numbers may be followed by other text; some spellings of small whole numbers are refused. parseNumberParts and normalizeToIntString of protobuf v1.33.0 as known, not on the box.",
 "C144": "ParseFloat and the shortest format are modelled by what they compute, not by their algorithms; the theorems show that this definition has the properties. Texts with more than 9000 digits and exponents from 100000 on are outside C144_numbers (strconv does not look at all digits of such exponents).",
 "C145": "Model of the trailers of grpc-go and of the gateway's error answers. Fits: the code is an int32 >= 0, the encoded status is below 2^64 bytes and type URLs are UTF-8.",
 "C146": "C146_every_metric is false of the code (five registered metrics are never recorded); the two _partial theorems say exactly which metrics appear. Everything else in the statement is proved; series with labels that are not UTF-8 are left out by the library, which CoreShows says.",
 "C147": "C147_reached and C147_promptly are false of the code; the _partial theorems have conditions on the time per address and on the addresses before the one that accepts. Bounds, refusals and silence are proved in full.",
 "C148": "C148_adds_up (ids without tickets can be inactive) and C148_active (updates between the reads) are false of the code; the _partial theorems give the exact equation and the case without changes.",
 "C149": "C149_names (the line about an invalid pool has only the reason), C149_formatted (logger.Error is called with a format) and C149_unassigned (ids without tickets are counted) are false of the code; C149_reasons and the two _partial theorems are exact.",
 "C150": "C150_noticed (functions that are not reached), C150_why (only errors of grpc.Dial are in the log) and C150_named (functions of type REST) are false of the code; the _partial theorems are exact.",
 "C151": "Full claims (over within the limit; within any time that depends on the limit) refuted with witnesses: a match just before the limit, a slow caller. Proved for all executions: bound with the deactivation, 100 ms and all sends; within the limit if functions that end normally have no matches; the exact time if sending takes no time.",
 "C152": "Full claim (in the cache after OM_CACHE_IN_WAIT_TIMEOUT_MS) refuted with a schedule. Proved for all executions: a bound for each update by the number of updates ahead of it, order, and that twice the setting is the exact bound if work takes no time. In-memory store only.",
 "C156": "Caches of the timed loops as histories; effects of activate, deactivate, create and assign after the limits of C154 and C155; that the ticket is created once under its id is a hypothesis (C08, C10).",
 "C157": "The continuation is one that the goroutines can take (the scheduler may delay them longer); with C154 and C155, every run in which time passes has everything applied after the limits.",
 "C158": "Extensions are excluded: how the members of an embedded message are named is up to its type (parameter of the model).",
 "C159": "Extensions are compared as they are (their members are up to their types).",
 "C160": "C160_messages for all byte strings related by wlike (Spec/WireLikeSpec.v), C160_unknown and C160_moved for encodings written field by field, C160_order_matters for fields with the same number, C160_replicas for updates in the caches of replicas. Groups, which proto3 does not have, are errors in the model",
 "C161": "C161_fields, C161_refused, C161_prefix and C161_concat for all byte strings, against the grammar of Spec/WireGrammarSpec.v; groups are left out of grammar and model"
}