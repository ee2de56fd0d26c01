{"id": "C01", "title": "Paged queue behaves as a duplicate-free FIFO", "statement": "For a queue opened on an empty file with page_size >= 1, every sequence of push, pop, inspect_span_key, pop_span_key, size, is_empty and clear gives exactly the answers of a plain in-memory list in which push appends unless the span key is already present, pop removes the head, and lookups/removals are by span key; where an entry happens to live (front page, SQLite, back page) is never observable.", "quantifier": "all page sizes >= 1, all finite operation sequences, all span keys and payloads", "why_tests_cant": "page boundaries, aliasing of the two pages and database spills combine in unboundedly many ways; tests exercise a few fixed sequences", "anchors": ["ekosis/queues/paginated_queue.py:PaginatedQueue.push/pop/inspect_span_key/pop_span_key/size/is_empty/clear", "ekosis/queues/paginated_queue.py:QueuePage"]}
{"id": "C02", "title": "A span key is held at most once and the first copy wins", "statement": "At every moment no span key occurs twice in the queue (across memory and database together), and pushing a span key that is already queued changes neither the stored payload nor its position.", "quantifier": "all page sizes, all operation sequences including restarts", "why_tests_cant": "needs the invariant over all histories, in particular entries split over three places", "anchors": ["ekosis/queues/paginated_queue.py:PaginatedQueue.push", "ekosis/queues/paginated_queue.py:QueueRecord.span_key"]}
{"id": "C03", "title": "Bounded memory and bounded crash loss", "statement": "With page_size >= 1 the queue never holds more than 2*page_size entries outside the SQLite file, so a process kill between operations loses at most 2*page_size entries, and what survives is exactly the entries that were in the file.", "quantifier": "all page sizes >= 1, all histories, a crash after any operation", "why_tests_cant": "a bound for every history; tests cannot kill the process after every prefix", "anchors": ["ekosis/queues/paginated_queue.py:PaginatedQueue", "ekosis/queues/paginated_queue.py:__load_front_page/__load_back_page/__write_back_page"]}
{"id": "C04", "title": "Graceful restart loses nothing and invents nothing", "statement": "shut_down followed by reopening the same file (even with a different page size) yields a queue with exactly the same entries (same span keys, same payloads, same count).", "quantifier": "all histories, all page sizes on both sides of the restart, any number of restarts", "why_tests_cant": "quantifies over all queue contents and page layouts", "anchors": ["ekosis/queues/paginated_queue.py:PaginatedQueue.shut_down", "ekosis/queues/paginated_queue.py:__do_initial_load", "ekosis/queues/paginated_queue.py:__write_front_page/__write_back_page"]}
{"id": "C05", "title": "FIFO order survives a graceful restart", "statement": "Entries pushed before a shut_down/reopen are popped after it in the order in which they were pushed.", "quantifier": "all histories and page sizes", "why_tests_cant": "only shows when more than page_size entries are queued at shut-down; the repository's tests check it for one size only", "anchors": ["ekosis/queues/paginated_queue.py:__load_back_page", "ekosis/queues/paginated_queue.py:__do_initial_load"]}
{"id": "C06", "title": "Database writes never violate the table constraints", "statement": "No sequence of operations and restarts makes the queue insert a record whose record id or span key is already in the table, so spilling a page or shutting down never fails with an integrity error.", "quantifier": "all histories over any number of shut-down/reopen cycles, all page sizes", "why_tests_cant": "record ids grow in both directions and are recomputed from min/max after every spill; collision freedom is an invariant over all histories", "anchors": ["ekosis/queues/paginated_queue.py:__write_front_page/__write_back_page/__get_min_record_id/__get_max_record_id"]}
{"id": "C07", "title": "Crash at any point leaves a consistent queue", "statement": "If the process dies at any point, including between the commits inside shut_down or inside a page load, then reopening succeeds and the entries found are a duplicate-free part of the entries that were queued at the time, each with its original payload.", "quantifier": "all histories, every crash point at commit granularity", "why_tests_cant": "crash points cannot be enumerated by tests", "anchors": ["ekosis/queues/paginated_queue.py:PaginatedQueue", "ekosis/queues/paginated_queue.py:shut_down"]}
{"id": "C08", "title": "Listing the first x keys reports the head of the queue", "statement": "get_first_x_span_keys(x) returns the span keys of the first min(x, size()) entries in queue order.", "quantifier": "all queue states reachable from operations, all x", "why_tests_cant": "depends on how entries are spread over the pages", "anchors": ["ekosis/queues/paginated_queue.py:PaginatedQueue.get_first_x_span_keys", "ekosis/queues/paginated_queue.py:QueuePage.get_first_x_span_keys"]}
{"id": "C09", "title": "A non-empty queue always yields an entry", "statement": "Whenever size() > 0, pop returns an entry (not None) and size() decreases by exactly one, for every page_size the constructor accepts.", "quantifier": "all integers accepted as page_size, all histories", "why_tests_cant": "needs all page sizes and all layouts", "anchors": ["ekosis/queues/paginated_queue.py:PaginatedQueue.pop", "ekosis/queues/paginated_queue.py:__load_front_page"]}
{"id": "C10", "title": "Reprocessing all error entries conserves them", "statement": "move_all_error_to_pending terminates, empties the error queue and appends every error entry to the pending queue, in error-queue order, with its data and metadata unchanged and its retry count reset to 0; no entry is lost.", "quantifier": "all pending and error queue contents and page sizes", "why_tests_cant": "all contents, in particular span keys present in both queues", "anchors": ["ekosis/queues/pending_queue.py:PendingQueue.move_all_error_to_pending"]}
{"id": "C11", "title": "Reprocessing one error entry moves exactly that entry", "statement": "move_one_error_to_pending(k) moves the entry with key k (data and metadata unchanged, retries 0) to the end of the pending queue, leaves every other entry alone, returns its data, and does nothing when k is not in the error queue.", "quantifier": "all contents and keys", "why_tests_cant": "all contents", "anchors": ["ekosis/queues/pending_queue.py:PendingQueue.move_one_error_to_pending"]}
{"id": "C12", "title": "Pop/inspect by key distinguishes found from missing", "statement": "The operations pop_request, inspect_request and reprocess-one on an error queue report 'not found' exactly when the key is not in the error queue, for every request payload.", "quantifier": "all payloads, all queue contents", "why_tests_cant": "depends on the payload value (falsy payloads), all payloads", "anchors": ["ekosis/requests/buffered_handler_base.py:pop_request_from_error_queue/inspect_request_from_error_queue/reprocess_error_queue_span_key", "ekosis/sending/buffered_sender_base.py", "ekosis/state_keepers/buffered_handler_keeper.py", "ekosis/standard_endpoints/buffered_handler_manager.py"]}
{"id": "C13", "title": "A failing request is attempted exactly max(1, max_retries) times", "statement": "If a buffered endpoint's function keeps returning False for a request, the function is called for it exactly max(1, max_retries) times, after which the request is in the error queue with its original data and metadata and is never called again without operator action; a success at an earlier attempt ends it there.", "quantifier": "all max_retries, all success/failure outcome sequences, any other traffic in the queue", "why_tests_cant": "all retry limits and interleavings with other requests", "anchors": ["ekosis/requests/buffered_handler_base.py:__do_queue_processing"]}
{"id": "C14", "title": "An accepted request is never lost or duplicated while handlers return booleans", "statement": "At every point of every schedule, every request accepted by a buffered endpoint (and not a duplicate of a queued one) is in exactly one of: waiting to be queued, pending queue, being processed, error queue, or completed/removed by an operator.", "quantifier": "all schedules of arrivals, task steps, pause/unpause, operator commands; all outcomes that are booleans", "why_tests_cant": "asyncio interleavings", "anchors": ["ekosis/requests/buffered_handler_base.py:run/__do_queue_processing/_process_queue/__check_process_queue"]}
{"id": "C15", "title": "A request whose handler raises is not lost", "statement": "If the user's buffered endpoint function raises an exception the request is still in the pending or the error queue afterwards.", "quantifier": "all requests and schedules", "why_tests_cant": "failure of user code at any point in any schedule", "anchors": ["ekosis/requests/buffered_handler_base.py:__do_queue_processing"]}
{"id": "C16", "title": "At most one request of an endpoint is processed at a time, in queue order", "statement": "For one buffered endpoint (or sender) there is never more than one live processing task, calls of the user function never overlap, and the requests are started in pending-queue order.", "quantifier": "all schedules", "why_tests_cant": "a race would only show under particular interleavings", "anchors": ["ekosis/requests/buffered_handler_base.py:__check_process_queue/_process_queue", "ekosis/sending/buffered_sender_base.py:__check_process_queue"]}
{"id": "C17", "title": "Pausing is effective", "statement": "After processing (sending) is paused no further request is started until it is unpaused: at most the call in progress completes. While receiving is paused every request is refused and nothing is added to the queue.", "quantifier": "all schedules and operator command sequences", "why_tests_cant": "interleavings", "anchors": ["ekosis/requests/buffered_handler_base.py:pause_receiving/pause_processing/run/_process_queue", "ekosis/sending/buffered_sender_base.py:pause_send_process"]}
{"id": "C18", "title": "No accepted request is stranded", "statement": "Whenever processing is not paused and the application is running, a pending request implies a live processing task (so every accepted request is eventually attempted without further traffic).", "quantifier": "all schedules", "why_tests_cant": "a lost wake-up shows only in particular interleavings", "anchors": ["ekosis/requests/buffered_handler_base.py:run/__check_process_queue", "ekosis/sending/buffered_sender_base.py:enqueue/__check_process_queue"]}
{"id": "C19", "title": "Operator pause survives reprocessing", "statement": "Reprocessing error entries does not change whether the operator has paused the queue.", "quantifier": "all states", "why_tests_cant": "all states", "anchors": ["ekosis/requests/buffered_handler_base.py:reprocess_error_queue/reprocess_error_queue_span_key", "ekosis/sending/buffered_sender_base.py:reprocess_error_queue"]}
{"id": "C20", "title": "Paused receiving is reported to the client as busy", "statement": "A request to a buffered endpoint whose receiving is paused is answered with status 500 (PROCESSING busy), which clients turn into ServerBusyException and buffered senders retry.", "quantifier": "all requests and handlers", "why_tests_cant": "spans handler, router, server and client", "anchors": ["ekosis/requests/buffered_handler_base.py:BufferedRequestHandlerReceivingPausedException", "ekosis/servers/server_base.py:_route_request", "ekosis/requests/status.py", "ekosis/clients/client_base.py:generate_response_exception"]}
{"id": "C21", "title": "Graceful shut-down never interrupts queue persistence", "statement": "Shutting a buffered endpoint or sender down writes the queues to disk exactly once and only when no request is being processed; the shut-down completes in every schedule, and every entry pending or in error at that point is found after restart.", "quantifier": "all schedules of shut-down against processing, pause/unpause", "why_tests_cant": "interleavings of shut-down with processing", "anchors": ["ekosis/requests/buffered_handler_base.py:shut_down/__shut_down_check", "ekosis/sending/buffered_sender_base.py:shut_down"]}
{"id": "C22", "title": "Buffered sender classifies outcomes", "statement": "For each attempt: success removes the message; ServerBusy and CommunicationsMaxRetriesReached count as a retry (pending again until max_retries is reached, then error queue with its reason); any other exception puts it in the error queue at once with the exception text.", "quantifier": "all outcome sequences, max_retries and queue contents", "why_tests_cant": "all outcome sequences", "anchors": ["ekosis/sending/buffered_sender_base.py:__do_queue_processing"]}
{"id": "C23", "title": "Buffered sender conserves messages", "statement": "At every point of every schedule each enqueued message is in exactly one of pending, being sent, error, or delivered/removed, whatever exceptions sending raises.", "quantifier": "all schedules and outcomes, including exceptions", "why_tests_cant": "interleavings and failures", "anchors": ["ekosis/sending/buffered_sender_base.py:enqueue/__do_queue_processing"]}
{"id": "C24", "title": "Every request gets exactly one well-formed response", "statement": "For every byte string received as a request line the server produces exactly one response, never an exception; the status is 0 on success, 100 for invalid JSON, 300 for a DTO that does not validate, 400 for an unknown route key, 600 when the handler raises ApplicationProcessingException, 999 for any other exception; a status-0 response carries the request's span key.", "quantifier": "all inputs, all registered handlers and middleware, all exception kinds they can raise", "why_tests_cant": "input space and handler behaviours are unbounded", "anchors": ["ekosis/servers/server_base.py:_route_request", "ekosis/requests/request_router.py:route_request"]}
{"id": "C25", "title": "Middleware sees every request in registration order", "statement": "For a request that reaches the router, each middleware's before_routing runs once, in registration order, each receiving the previous one's result, the handler runs on the final result, and each after_routing runs once in registration order on the previous result; the route taken is that of the original request.", "quantifier": "all middleware lists and requests", "why_tests_cant": "all lists of middlewares", "anchors": ["ekosis/middleware/manager.py", "ekosis/requests/request_router.py:route_request"]}
{"id": "C26", "title": "Route keys are unique", "statement": "Registering a route key twice always fails and leaves the first handler in place; a registered handler is found by exactly its key.", "quantifier": "all registration sequences", "why_tests_cant": "all sequences", "anchors": ["ekosis/requests/request_router.py:register_handler"]}
{"id": "C27", "title": "Requests on one connection are answered in order whatever the chunking", "statement": "However the bytes of a connection are cut into chunks, the responses written are, in order, one per complete line before the first stop, an ENQ line being answered by ACK; an unterminated tail gets no response.", "quantifier": "all byte streams, all chunkings", "why_tests_cant": "all ways of splitting the stream", "anchors": ["ekosis/servers/stream_server_base.py:_handle_request"]}
{"id": "C28", "title": "Clients make at most max_retries attempts", "statement": "send_message on a transient stream client (and datagram client) makes at most max_retries attempts; it makes another attempt only after a retryable error and raises CommunicationsMaxRetriesReached exactly when all attempts failed with retryable errors; any other error is raised at once.", "quantifier": "all max_retries >= 1 and all sequences of transport outcomes", "why_tests_cant": "all outcome sequences", "anchors": ["ekosis/clients/stream_client_base.py", "ekosis/clients/datagram_client_base.py", "ekosis/clients/persistent_stream_client_base.py"]}
{"id": "C29", "title": "Error statuses map to the documented exceptions", "statement": "For every response with status other than 0 the client raises exactly the exception documented for that status and never returns data; for status 0 it returns the parsed data.", "quantifier": "all statuses and response bodies", "why_tests_cant": "all statuses/bodies", "anchors": ["ekosis/clients/client_base.py:generate_response_exception/send_message", "ekosis/requests/status.py"]}
{"id": "C30", "title": "A client never receives another request's response", "statement": "The response returned by send_message is the server's response to that very request.", "quantifier": "all timings of responses, timeouts and retries", "why_tests_cant": "needs late responses after a time-out", "anchors": ["ekosis/clients/persistent_stream_client_base.py", "ekosis/clients/datagram_client_base.py"]}
{"id": "C31", "title": "Span keys survive their binary form", "statement": "Converting a span key to its 24-byte form and back gives an equal key; distinct keys have distinct byte forms, each exactly 24 bytes.", "quantifier": "all 128-bit trace ids and 64-bit span ids", "why_tests_cant": "2^192 keys", "anchors": ["ekosis/data_transfer_objects/json_protocol.py:SpanKey.bytes/from_bytes", "ekosis/data_transfer_objects/span_id.py"]}
{"id": "C32", "title": "Span keys survive their textual form", "statement": "Converting a span key to its string form and parsing it back gives an equal key; distinct keys have distinct strings.", "quantifier": "all span keys", "why_tests_cant": "2^192 keys", "anchors": ["ekosis/data_transfer_objects/json_protocol.py:SpanKey.__str__/from_hex", "ekosis/data_transfer_objects/span_id.py"]}
{"id": "C33", "title": "Only canonical span ids are accepted", "statement": "A span id given as text is accepted only if it is 16 hexadecimal digits; it then denotes the 64-bit number with those digits. Any other text raises ValueError.", "quantifier": "all strings", "why_tests_cant": "all strings of length 16", "anchors": ["ekosis/data_transfer_objects/span_id.py:SpanId"]}
{"id": "C34", "title": "The LRU cache never exceeds its size", "statement": "An LRUCache never holds more than max_size keys and no operation fails, for every max_size >= 1.", "quantifier": "all max_size >= 1, all operation sequences", "why_tests_cant": "the linked-list manipulation depends on the whole history", "anchors": ["ekosis/cacheing/lru_cache.py"]}
{"id": "C35", "title": "The LRU cache returns the last value stored", "statement": "peek, get and [] return the value most recently stored under the key whenever the key is in the cache, and a key is in the cache only if it was stored and not since deleted, popped or evicted.", "quantifier": "all operation sequences", "why_tests_cant": "depends on node reuse over the whole history", "anchors": ["ekosis/cacheing/lru_cache.py"]}
{"id": "C36", "title": "The LRU cache evicts the least recently used key and iterates in recency order", "statement": "When a new key is stored in a full cache the key evicted is the one whose last store or read is oldest; iteration lists the keys from most to least recently used.", "quantifier": "all operation sequences", "why_tests_cant": "depends on the whole history", "anchors": ["ekosis/cacheing/lru_cache.py"]}
{"id": "C37", "title": "Statistics history is bounded and ordered", "statement": "The statistics history never exceeds the configured length, its first entry is the most recent gathering, and it is the last history_length gatherings newest first.", "quantifier": "all numbers of gathering periods, all history lengths >= 1", "why_tests_cant": "unbounded running time", "anchors": ["ekosis/state_keepers/statistics_keeper.py:gather loop"]}
{"id": "C38", "title": "Counters add up", "statement": "After any sequence of increments and decrements of named statistics, the current value of each name is the sum of the changes to it since the last reset, independent of changes to other names.", "quantifier": "all sequences and all sets of names of which none is a dotted prefix of another", "why_tests_cant": "all sequences; all names", "anchors": ["ekosis/state_keepers/statistics_keeper.py:increment/decrement/set_statistic_value"]}
{"id": "C39", "title": "Percentiles are sane", "statement": "The p95 and p99 reported for an endpoint satisfy min <= p95 <= p99 <= max of the call durations of the period.", "quantifier": "all non-empty duration lists", "why_tests_cant": "all lists of numbers", "anchors": ["ekosis/state_keepers/statistics_keeper.py:percentiles"]}
{"id": "C40", "title": "Error state counts are accurate", "statement": "Error ids are case-insensitive; the count of a state is the number of times it was raised since it was last cleared minus the number cleared, never negative, and the state is reported set iff the count is positive.", "quantifier": "all operation sequences", "why_tests_cant": "all sequences", "anchors": ["ekosis/state_keepers/error_state_keeper.py", "ekosis/state_keepers/error_state_list.py"]}
{"id": "C41", "title": "Configuration precedence", "statement": "A configuration value is taken from the instance-level variable if set, else the application-level, else the machine-level, else the default; an empty variable counts as unset; instance-only settings ignore the other levels.", "quantifier": "all environments", "why_tests_cant": "all environments", "anchors": ["ekosis/configuration/config_models.py:get_eco_env"]}
{"id": "C42", "title": "The buffered log handler keeps order and loses nothing", "statement": "Every log record given to the handler is written to the log files exactly once and in order; at most `capacity` records are unwritten at any time and flush writes them all.", "quantifier": "all record sequences and buffer sizes, all flush/size-change points", "why_tests_cant": "all sequences", "anchors": ["ekosis/logs/buffered_rotating_file_handler.py"]}
{"id": "C43", "title": "The log shipper delivers every complete line", "statement": "For every interleaving of appends, rotations, polls, failed and successful posts and restarts, every complete line written to a tailed log file is posted at least once and lines are posted in file order; with no failure and no restart, exactly once.", "quantifier": "all interleavings", "why_tests_cant": "races between rotation and polling", "anchors": ["ekosis_log_shipper/src/tracked_file.cpp", "ekosis_log_shipper/src/main.cpp", "ekosis_log_shipper/src/state_store.cpp"]}
{"id": "C44", "title": "Prometheus translation keeps every statistic", "statement": "Every endpoint's statistics in the gathered tree appear in the scraped metrics under that endpoint's route key.", "quantifier": "all statistics trees and route keys", "why_tests_cant": "all route keys", "anchors": ["ekosis_prometheus/ekosis_prometheus/stats_translator.py"]}
{"id": "C45", "title": "Help-text wrapping keeps the text", "statement": "Wrapping a help text keeps all words in order and no line is longer than the width unless it consists of a single word. Line breaks of the text are kept, other breaks are made only where the next word does not fit, and no blank lines are added.", "quantifier": "all texts and widths", "why_tests_cant": "all texts", "anchors": ["ekosis/cli/argparse_formatter.py"]}
{"id": "C46", "title": "One process per instance", "statement": "At any time at most one process runs a given application instance: a second start with a live lock file is refused and the lock is removed at a graceful shut-down.", "quantifier": "all interleavings of start-ups", "why_tests_cant": "races between two start-ups", "anchors": ["ekosis/application_base.py"]}
{"id": "C47", "title": "Buffered metadata is collected once and carried through retries", "statement": "The metadata stored with a buffered request is the merge, later middleware winning, of what each middleware supplied at acceptance, and the same metadata is passed to every processing attempt, including after retries, error-queue moves and restarts.", "quantifier": "all middleware lists, retries, restarts", "why_tests_cant": "all histories", "anchors": ["ekosis/middleware/buffered_middleware_manager.py", "ekosis/requests/buffered_handler_base.py", "ekosis/queues/pending_queue.py"]}
{"id": "C48", "title": "Handler arguments are filtered by name", "statement": "A handler function is called with exactly those of the offered arguments it declares (all of them if it takes **kwargs) and never with an unexpected keyword.", "quantifier": "all handler signatures", "why_tests_cant": "all signatures", "anchors": ["ekosis/requests/standard_handler.py", "ekosis/requests/buffered_handler.py"]}
{"id": "C49", "title": "An entry on disk survives a crash until it is removed", "statement": "Once an entry would survive a crash (it has been written to the SQLite file), it continues to survive crashes until it is popped, removed by key or cleared.", "quantifier": "all histories and crash points", "why_tests_cant": "needs a crash after the page holding the entry was reloaded", "anchors": ["ekosis/queues/paginated_queue.py:__load_front_page/__delete_record_ids"]}
{"id": "C50", "title": "Buffered messages are sent one at a time, in queue order, and none is stranded", "statement": "A buffered sender hands messages to its client one at a time and in the order in which they were put into the pending queue. Whenever a message is pending and sending is not paused, a sending task is alive, and if sending succeeds from then on every pending message is delivered, in order.", "quantifier": "all histories of enqueuing, pausing, operator commands, outcomes and task interleavings", "why_tests_cant": "needs every interleaving of callers, the sending task and operator commands", "anchors": ["ekosis/sending/buffered_sender.py"]}
{"id": "C51", "title": "Pausing and shutting down a buffered sender", "statement": "While sending is paused no new message is taken from the pending queue. A shut-down closes the queues exactly once, at once or when the message in hand is done, and a restart finds every message that was not delivered or removed; the application's own teardown loses nothing but the message being sent.", "quantifier": "all histories, all instants of the pause or shut-down", "why_tests_cant": "needs every interleaving of shut-down with the sending task", "anchors": ["ekosis/sending/buffered_sender.py", "ekosis/application_base.py"]}
{"id": "C52", "title": "Every complete line on a stream connection is answered", "statement": "On a TCP or UDS connection that is not lost, once no request is being handled there is exactly one reply for every complete line received, and the connection never waits while a complete line is unread or after the stream has ended.", "quantifier": "all byte streams, chunkings and completion times", "why_tests_cant": "all byte strings, including ones that are not text or exceed buffer limits, and all arrival patterns", "anchors": ["ekosis/servers/stream_server_base.py:_handle_request"]}
{"id": "C53", "title": "Datagram requests are answered one at a time, each to its sender", "statement": "A UDP server handles the well-formed datagrams one at a time in order of arrival, sends each answer to the address its request came from, answers enquiries at once, and an exception while handling one datagram costs only its own answer.", "quantifier": "all sequences of datagrams from all senders, interleaved arbitrarily with completions", "why_tests_cant": "needs every interleaving of arrivals with running handlers", "anchors": ["ekosis/servers/json/udp.py"]}
{"id": "C54", "title": "Extra settings precedence", "statement": "The extra settings an application sees are exactly those defined by ECOENV_EXTRA variables: the instance's own value if there is one, else the application's, else the machine's; a name has one value, and an empty value counts as a value here.", "quantifier": "all environments", "why_tests_cant": "needs all environments and names", "anchors": ["ekosis/configuration/config_models.py:get_app_instance_extra"]}
{"id": "C55", "title": "Server addresses", "statement": "A host:port address set for an instance is used exactly as written, a socket path names its directory and file (DEFAULT stands for application_instance.uds.sock), an unset address means no server, and a malformed address stops the application rather than being ignored.", "quantifier": "all environments and address strings", "why_tests_cant": "needs all strings", "anchors": ["ekosis/configuration/config_models.py:parse_host_port_string,get_app_instance_tcp,get_app_instance_udp,get_app_instance_uds"]}
{"id": "C56", "title": "Isolation of settings", "statement": "A variable set for one instance or application never changes a setting of another instance or application, and default socket names of different instances differ.", "quantifier": "all environments, names of applications and instances, settings", "why_tests_cant": "needs all names, including awkward ones", "anchors": ["ekosis/configuration/config_models.py:get_eco_env,get_app_instance_uds"]}
{"id": "C57", "title": "Custom statistics stay apart in Prometheus", "statement": "Different custom statistics of a service are exported as different metrics, so none replaces another.", "quantifier": "all statistics trees and names", "why_tests_cant": "needs all names", "anchors": ["ekosis_prometheus/ekosis_prometheus/stats_translator.py:_flatten,translate_gathered_stats"]}
{"id": "C58", "title": "Scraping: health and isolation", "statement": "After every scrape the health metric of each service says whether it answered, every metric of a service that answered has the value reported, and a service that fails leaves the others' metrics untouched.", "quantifier": "all sets of services, answers, failures and reports", "why_tests_cant": "needs all combinations of reports and failures", "anchors": ["ekosis_prometheus/ekosis_prometheus/scraper.py:_scrape_and_push"]}
{"id": "C59", "title": "Service discovery agrees with the services' configuration", "statement": "Every instance configured on this machine is discovered at the address its own configuration gives it, and nothing else is discovered.", "quantifier": "all environments", "why_tests_cant": "two components read the same variables in different ways", "anchors": ["ekosis_prometheus/ekosis_prometheus/service_discovery.py", "ekosis/configuration/config_models.py"]}
{"id": "C60", "title": "A stale lock never prevents a start", "statement": "When no process of an application instance is left, however it ended, the instance can be started again.", "quantifier": "all histories of starts, shut-downs, crashes and process ids", "why_tests_cant": "needs every crash point of a start and every later use of process ids", "anchors": ["ekosis/application_base.py:__lock_file_check"]}
{"id": "C61", "title": "A log line belongs to the request it was logged in", "statement": "The span key written with a log line is the one of the request during which the line was logged.", "quantifier": "all sequences of log records, buffer sizes and flush points, all spans", "why_tests_cant": "needs all interleavings of requests with the buffer's flushes", "anchors": ["ekosis/logs/logger.py", "ekosis/logs/buffered_rotating_file_handler.py"]}
{"id": "C62", "title": "A termination signal while log lines are written", "statement": "A termination signal that arrives while buffered log records are written ends the application, and every record is in the log exactly once afterwards.", "quantifier": "all instants of the signal", "why_tests_cant": "needs every instant at which a signal can arrive", "anchors": ["ekosis/logs/buffered_rotating_file_handler.py:flush", "ekosis/application_base.py:__handle_exit_signal"]}
{"id": "C63", "title": "Message texts are lossless single lines", "statement": "The text of a message, read back with any blanks around it, gives the same value; texts of different values differ; the text contains no line feed or other control byte, whatever the strings in it contain; what is read never has a key twice.", "quantifier": "all messages of strings, integers, booleans, null, lists and dicts, of any depth and size", "why_tests_cant": "unbounded nesting and all byte strings", "anchors": ["ekosis/clients/client_base.py:send_message", "ekosis/servers/stream_server_base.py", "ekosis/servers/server_base.py:_route_request"]}
{"id": "C64", "title": "Requests and responses arrive as sent", "statement": "The server reads from a client's message exactly the route key, the span key and the data that were sent, and the client reads exactly the status and data of the response; however many requests are written on a connection and however their bytes are cut, the server answers exactly these requests in order.", "quantifier": "all requests, span keys, data and chunkings", "why_tests_cant": "needs all data, all keys and all ways the bytes can arrive", "anchors": ["ekosis/clients/client_base.py:send_message", "ekosis/data_transfer_objects/json_protocol.py:RequestDTO/ResponseDTO/SpanKey", "ekosis/servers/stream_server_base.py:_handle_request"]}
{"id": "C65", "title": "A log record keeps its time", "statement": "The time with which a log record reaches the collector is the time at which it was logged, to the microsecond.", "quantifier": "all moments that datetime can hold", "why_tests_cant": "2.5e17 moments: leap years, month ends, whole seconds", "anchors": ["ekosis/logs/otlp_formatter.py:OtlpFormatter.format", "ekosis_log_shipper/src/otlp_envelope.cpp:parse_iso8601_to_unix_nanos"]}
{"id": "C66", "title": "A log record keeps its content", "statement": "The record that the collector receives has the severity, message, source location, application and span of the log call; a batch of lines becomes one message with one record per line in order, each reported under the application that wrote it; nothing that was logged is lost.", "quantifier": "all log records, span keys, applications and batches", "why_tests_cant": "all strings and batch contents, across two programs", "anchors": ["ekosis/logs/otlp_formatter.py", "ekosis/data_transfer_objects/otlp_log_record.py", "ekosis_log_shipper/src/otlp_envelope.cpp"]}
{"id": "C67", "title": "What is logged reaches the collector", "statement": "Every log line that the formatter wrote converts, and when the shipper is left alone the collector has received one record for each of them, in order, once.", "quantifier": "all histories of logging, rotation, polling and posting in which no rotation is missed and no post is repeated, all record contents", "why_tests_cant": "end to end over two programs and all their interleavings", "anchors": ["ekosis/logs/otlp_formatter.py", "ekosis_log_shipper/src/main.cpp", "ekosis_log_shipper/src/otlp_envelope.cpp"]}
{"id": "C68", "title": "The span of a request", "statement": "With the tracing middleware every request for a known route has exactly one span, named after the route, in the caller's trace and as a child of the caller's span; it is ended with status OK when the request is answered, it is ended too when the request fails, and the middleware keeps nothing of requests that are over.", "quantifier": "all histories of any number of concurrent requests, responses, failures and restarts, all span keys", "why_tests_cant": "needs every interleaving of concurrent requests and every point of failure", "anchors": ["ekosis_otlp_traces/ekosis_otlp_traces/middleware.py", "ekosis/requests/request_router.py"]}
{"id": "C69", "title": "Spans of buffered processing", "statement": "Every attempt at a buffered request has exactly one span, with the number of retries, as a child of the span of the request that buffered it, in the same trace, however often it is retried and across restarts; it is ended, with the outcome, when the attempt is over.", "quantifier": "all histories of requests, attempts, retries, exceptions and restarts", "why_tests_cant": "the parent is carried through a database and across processes, in every interleaving", "anchors": ["ekosis_otlp_traces/ekosis_otlp_traces/buffered_middleware.py", "ekosis/requests/buffered_handler_base.py"]}
{"id": "C70", "title": "Managing the queues of buffered endpoints", "statement": "Each management request about a buffered endpoint (data, pause and unpause, the first ten error keys, reprocess, clear, reprocess/pop/inspect one) does to the queues of the endpoint it names exactly what it says, and nothing else; the answer reports the queue as it then is, the request that was found, or that there is no such queue or request; every other queue is left alone.", "quantifier": "all applications, histories and management requests", "why_tests_cant": "needs all histories before the request, including retries, crashes and other requests", "anchors": ["ekosis/standard_endpoints/buffered_handler_manager.py", "ekosis/state_keepers/buffered_handler_keeper.py"]}
{"id": "C71", "title": "Managing the queues of buffered senders", "statement": "The same for buffered senders.", "quantifier": "all applications, histories and management requests", "why_tests_cant": "needs all histories before the request", "anchors": ["ekosis/standard_endpoints/buffered_sender_manager.py", "ekosis/state_keepers/buffered_sender_keeper.py"]}
{"id": "C72", "title": "Command line tools ask for what was asked for", "statement": "For every way of writing the options (either name, any order): the tool for endpoint queues sends to the named server one request that the application reads as the named operation on the named queue (and key); it never sends a request about a queue or for an operation that is not among its arguments; two different operations, or an operation on one request without its key, send nothing. The tool for sender queues does the same for senders. The log and statistics tools send the settings and queries they are given, in order.", "quantifier": "all argument lists, server addresses, queue names, keys and operations", "why_tests_cant": "tests run a few command lines against one server", "anchors": ["ekosis/cli/bem.py: do_endpoint_action, main", "ekosis/cli/bsm.py: do_sender_action, main", "ekosis/cli/log.py", "ekosis/cli/stat.py", "ekosis/cli/shared_functions.py", "ekosis/cli/shared_queue_argument_parser.py", "ekosis/cli/senders/*", "ekosis/standard_endpoints/*"]}
{"id": "C73", "title": "Every buffered endpoint and sender has its own queues", "statement": "An application starts exactly when no two endpoints share a route key. After the start every declared buffered endpoint and buffered sender has a pending and an error database of its own, shared with nobody else in the application, and takes messages; after a restart, whatever else is declared, it finds the same files; everything set up is shut down exactly once.", "quantifier": "all lists of declarations in all orders, all names and route keys", "why_tests_cant": "tests declare a handful of endpoints with distinct names", "anchors": ["ekosis/requests/buffered_endpoint.py", "ekosis/sending/buffered_sender.py", "ekosis/state_keepers/buffered_sender_keeper.py: add_buffered_sender", "ekosis/requests/request_router.py: register_handler", "ekosis/application_base.py", "ekosis/queues/pending_queue.py"]}
{"id": "C74", "title": "Instances do not share files", "statement": "Different applications and instances that share a directory never use the same queue database, lock file, log file or socket.", "quantifier": "all application names, instance names and route keys", "why_tests_cant": "names are free text; tests use one application", "anchors": ["ekosis/requests/buffered_handler_base.py: __configure_queue", "ekosis/sending/buffered_sender_base.py: __configure_queue", "ekosis/application_base.py: __lock_file_check", "ekosis/logs/logger.py: setup"]}
{"id": "C75", "title": "However a run ends, nothing queued is lost", "statement": "However a run of an application ends (return of start, exception in a set-up, a server, a task or user code, termination signal), once the process is over the files of every buffered endpoint and sender hold exactly the entries that were queued and not yet taken; exit status 0 means that this is so and that the log has been flushed.", "quantifier": "all applications, files, histories of queue operations, failures, signals and their places", "why_tests_cant": "needs every point at which a run can end and every history before it", "anchors": ["ekosis/application_base.py: __exit__, __start, __set_up_*, __shut_down_*", "ekosis/servers/json/tcp.py", "ekosis/servers/json/uds.py", "ekosis/servers/json/udp.py", "ekosis/requests/buffered_handler_base.py: setup, shut_down", "ekosis/sending/buffered_sender_base.py: setup, shut_down"]}
{"id": "C76", "title": "A termination signal ends the application", "statement": "A termination signal to a serving application ends it, wherever the program is when the signal arrives: with status 0, no traceback, all sockets closed, the log flushed and nothing queued lost.", "quantifier": "all applications and histories, all places in the program", "why_tests_cant": "the place is chosen by the scheduler of the operating system", "anchors": ["ekosis/application_base.py: __enter__, __exit__, handle_signal", "ekosis/exceptions/exception_base.py", "ekosis/servers/server_base.py: _route_request", "ekosis/sending/buffered_sender_base.py: __do_queue_processing, setup"]}
{"id": "C77", "title": "Servers that cannot be started", "statement": "An application that serves has all its queues open and no server that has failed; when a server cannot be started the run ends, reports the error and says so in its exit status; after a run no socket is left open.", "quantifier": "all applications, histories and orders in which servers start and fail", "why_tests_cant": "needs every interleaving of the starts of several servers with set-up, failures and signals", "anchors": ["ekosis/application_base.py: __start, __start_tcp_server, __start_udp_server, __start_uds_server", "ekosis/servers/json/tcp.py", "ekosis/servers/json/uds.py", "ekosis/servers/json/udp.py"]}
{"id": "C78", "title": "No message is lost between two applications", "statement": "Every message that was enqueued with a buffered sender, or that it had when it started, is at any moment with the sender (pending, being sent, in its error queue or taken out of it) or with the buffered endpoint it is sent to (about to be queued, pending, being processed, in its error queue, processed or taken out of it); what the sender takes for delivered the endpoint has accepted.", "quantifier": "all messages, contents of both queues at the start, orders of steps of both applications, other clients, and losses and delays of requests and answers", "why_tests_cant": "needs every interleaving of two applications with a network that may lose or delay any request or answer at any time", "anchors": ["ekosis/sending/buffered_sender_base.py", "ekosis/clients/stream_client_base.py: _send_message_retry_loop", "ekosis/clients/client_base.py: send_message", "ekosis/requests/handler_base.py: attempt_request", "ekosis/requests/buffered_handler_base.py: run"]}
{"id": "C79", "title": "How often a message is processed", "statement": "A message enqueued once with a buffered sender is accepted and processed by the endpoint at most once; it is accepted no more often than it is delivered, but for attempts that failed or are under way.", "quantifier": "all messages and histories of both applications and the network", "why_tests_cant": "the second acceptance needs an answer lost at the right moment in an otherwise successful history", "anchors": ["ekosis/sending/buffered_sender_base.py", "ekosis/clients/stream_client_base.py: _send_message_retry_loop", "ekosis/requests/buffered_handler_base.py: run"]}
{"id": "C80", "title": "Order between two applications", "statement": "The endpoint accepts the messages of a buffered sender in the order in which the sender delivers them.", "quantifier": "all histories of both applications and the network", "why_tests_cant": "needs requests that overtake each other after a timeout", "anchors": ["ekosis/sending/buffered_sender_base.py", "ekosis/clients/stream_client_base.py: _send_message_retry_loop", "ekosis/requests/buffered_handler_base.py: run"]}
{"id": "C81", "title": "Host and port checks", "statement": "is_valid_ipv4_address accepts exactly the texts of IPv4 addresses; is_valid_hostname gives an answer for every text and accepts exactly IPv4 addresses and RFC 1123 host names; is_valid_port_number accepts exactly the decimal texts of numbers up to 65535.", "quantifier": "all texts", "why_tests_cant": "there are infinitely many texts and the exceptions are single characters at single places", "anchors": ["ekosis/util/utility_functions.py: is_valid_ipv4_address, is_possible_valid_ietf_hostname, is_valid_hostname, is_valid_port_number"]}
{"id": "C82", "title": "Flattened dictionaries", "statement": "flatten_dictionary returns exactly the entries of the nested dictionaries that are not dictionaries, each under its keys joined by dots, in order.", "quantifier": "all nested dictionaries", "why_tests_cant": "nesting is unbounded and clashes need particular keys at different depths", "anchors": ["ekosis/util/utility_functions.py: flatten_dictionary"]}
{"id": "C83", "title": "Names of applications", "statement": "Scripts with different file names are applications with different names (which select their environment variables and files), whatever the directory they are started from.", "quantifier": "all directories and file names of scripts", "why_tests_cant": "names are free text; a test has one script", "anchors": ["ekosis/util/utility_functions.py: camel_to_snake", "ekosis/configuration/config_models.py: application_name"]}
{"id": "C84", "title": "Accepted requests and crashes", "statement": "Every request a buffered endpoint accepted that is neither finished nor removed is, after any crash and restart, in one of its queues; if not, the number of requests lost is bounded: per crash at most four pages, two requests and those accepted but not yet queued, and a graceful end loses nothing that was queued.", "quantifier": "all numbers of lives of the process, all histories in each, all page sizes, and all points at which each life ends (between any two commits of an operation, of shut-down or of start-up)", "why_tests_cant": "needs every crash point of every history, and what remains of all earlier lives", "anchors": ["ekosis/requests/buffered_handler_base.py", "ekosis/queues/pending_queue.py: PendingQueue", "ekosis/queues/paginated_queue.py"]}
{"id": "C85", "title": "Attempts and crashes", "statement": "Over any number of crashes and restarts, a request accepted under its own key is in at most one of: pending, error queue, finished, removed; its function is called at most max(1, max_retries) times (per time an operator puts it back); it is finished by exactly one call that returned True and never called again; a restart finds it with the exact count of its calls so far and its original data.", "quantifier": "all numbers of lives, histories and crash points", "why_tests_cant": "needs every crash point of every history, and what remains of all earlier lives", "anchors": ["ekosis/requests/buffered_handler_base.py: _process_queue, setup", "ekosis/queues/pending_queue.py: PendingQueue"]}
{"id": "C86", "title": "Enqueued messages and crashes", "statement": "Every message given to a buffered sender that is neither delivered nor removed is, after any crash and restart, in one of its queues; if not, the number of messages lost is bounded: per crash at most four pages and two messages, and a graceful end loses none.", "quantifier": "all numbers of lives of the process, all histories in each, all page sizes, and all points at which each life ends (between any two commits of an operation, of shut-down or of start-up)", "why_tests_cant": "needs every crash point of every history, and what remains of all earlier lives", "anchors": ["ekosis/sending/buffered_sender_base.py", "ekosis/queues/pending_queue.py: PendingQueue", "ekosis/queues/paginated_queue.py"]}
{"id": "C87", "title": "Delivery attempts and crashes", "statement": "Over any number of crashes and restarts, a message enqueued under its own key is in at most one of: pending, error queue, delivered, removed; it is given to the client at most max(1, max_retries) times (per time an operator puts it back), and never again once it is delivered; a restart finds it with the exact count of its attempts so far and its original data, or in error with the reason that put it there.", "quantifier": "all numbers of lives, histories and crash points", "why_tests_cant": "needs every crash point of every history, and what remains of all earlier lives", "anchors": ["ekosis/sending/buffered_sender_base.py: __do_queue_processing, setup", "ekosis/queues/pending_queue.py: PendingQueue"]}
{"id": "C88", "title": "Answers to calls", "statement": "A call on a transient stream client ends with what the application answered to this very request (the value its endpoint returned, or the exception of its status), or with one of the documented exceptions for failed communication, or it is cancelled.", "quantifier": "all requests, applications, numbers of concurrent calls on a client, ways in which the network cuts, delays, loses and resets, and schedules", "why_tests_cant": "needs every way in which bytes of both directions are cut and every point at which a connection ends, with retries and other calls in between", "anchors": ["ekosis/clients/client_base.py: send_message", "ekosis/clients/stream_client_base.py: _send_message_retry_loop", "ekosis/clients/json/transient_tcp.py", "ekosis/servers/stream_server_base.py: _process_connection", "ekosis/servers/server_base.py: _route_request"]}
{"id": "C89", "title": "How often a call is handled", "statement": "A call on a transient stream client has its request handled exactly once if it returns, and not at all if it reports that communication failed; in any case at most max_retries times.", "quantifier": "all requests, applications, concurrent calls, networks and schedules", "why_tests_cant": "the second handling needs a response lost, or late, at the right moment in an otherwise successful history", "anchors": ["ekosis/clients/stream_client_base.py: _send_message_retry_loop", "ekosis/clients/json/transient_tcp.py", "ekosis/servers/stream_server_base.py: _process_connection"]}
{"id": "C90", "title": "Answers that arrive", "statement": "Once a request has been handled and the response has reached the client over an intact connection, the call ends with the answer, whatever the sizes of request and response.", "quantifier": "all requests, responses, applications and histories before", "why_tests_cant": "sizes are unbounded; the limit lies in the library's defaults on both sides", "anchors": ["ekosis/clients/stream_client_base.py: _send_message_retry_loop", "ekosis/clients/json/transient_tcp.py", "ekosis/servers/stream_server_base.py: _process_connection"]}
{"id": "C91", "title": "Every log file is shipped", "statement": "The log shipper posts every complete line of every log file in the watched directory, in the order of its file, at least once, as soon as it is left alone with an endpoint that works; and exactly once while it is not killed and no post that came through is reported as failed. What happens to one file does not change what is posted of another.", "quantifier": "all numbers of files, all interleavings of their writers with the shipper, directory orders, rotations, crashes, restarts and failing posts", "why_tests_cant": "many files, their rotations and the shipper's single loop interleave without bound", "anchors": ["ekosis_log_shipper/src/main.cpp: main", "ekosis_log_shipper/src/tracked_file.cpp: TrackedFile::poll", "ekosis_log_shipper/src/state_store.cpp"]}
{"id": "C92", "title": "A malformed line holds up its own file only", "statement": "A complete line that cannot be converted into a log record does not keep the log shipper from shipping the other log files of the directory.", "quantifier": "all files, contents, positions of the line, restarts and later histories", "why_tests_cant": "it depends on the order of the files and on what remains to be shipped of each at that moment", "anchors": ["ekosis_log_shipper/src/main.cpp: main", "ekosis_log_shipper/src/otlp_envelope.cpp: build_otlp_logs_payload"]}
{"id": "C93", "title": "Once paused, nothing new is started", "statement": "From the moment at which processing of a buffered endpoint (sending of a buffered sender) is paused until it is unpaused or a reprocessing is requested, no further queued entry is started, whatever else happens; at most one call of the endpoint's function (one hand-over to the client) is still made, the one for an entry started before.", "quantifier": "all histories before the pause and all later schedules of tasks, requests, failures and operator requests", "why_tests_cant": "the pause can fall between any two steps of the processing task", "anchors": ["ekosis/requests/buffered_handler_base.py:pause_receiving/pause_processing/run/_process_queue", "ekosis/sending/buffered_sender_base.py:pause_send_process", "ekosis/sending/buffered_sender.py", "ekosis/application_base.py"]}
{"id": "C94", "title": "The order after a restart is determined", "statement": "After a graceful shut-down and a reopening with page size n >= 1 the entries come out in this order: the first n in the order of before, then all others except the last n, in order, then the last n (or what is left after the first n, if fewer) in reverse.", "quantifier": "all histories of the queue, all page sizes before and after, all lengths", "why_tests_cant": "which entries are reversed depends on the length of the queue and the page size", "anchors": ["ekosis/queues/paginated_queue.py:__load_back_page", "ekosis/queues/paginated_queue.py:__do_initial_load"]}
{"id": "C95", "title": "What reprocessing does, exactly", "statement": "Reprocessing all error entries always ends without an exception and leaves the error queue empty; of its entries exactly those whose key was not pending are appended to the pending queue, in order, with their data and metadata and retries 0. Reprocessing one key does this for the entry with that key and leaves all others as they are; with a key that is not in the error queue it changes nothing.", "quantifier": "all reachable pairs of queues, all page sizes but 0, all keys", "why_tests_cant": "pages of both queues in memory and database, any number of entries, equal keys", "anchors": ["ekosis/queues/pending_queue.py:PendingQueue.move_all_error_to_pending", "ekosis/queues/pending_queue.py:PendingQueue.move_one_error_to_pending"]}
{"id": "C96", "title": "A call never makes more than max_retries attempts", "statement": "A call on a client never sends its request more than max_retries times, whatever happens to the connections and whatever other calls on the same client, their successes, their failures, cancellations and heartbeats do; and the server handles it at most once for each attempt.", "quantifier": "all clients, numbers of concurrent calls, schedules, failures and values of max_retries", "why_tests_cant": "concurrent calls share counters and connections", "anchors": ["ekosis/clients/stream_client_base.py", "ekosis/clients/datagram_client_base.py", "ekosis/clients/persistent_stream_client_base.py", "ekosis/clients/stream_client_base.py: _send_message_retry_loop", "ekosis/clients/json/transient_tcp.py", "ekosis/servers/stream_server_base.py: _process_connection"]}
{"id": "C97", "title": "Data that a transient stream client returns is the answer to this call", "statement": "When a call on a transient stream client returns data, the application answered this very request with status 0 on a connection of this call, and the data is what its function returned (without middleware: for the DTO made from the data that was sent). Otherwise the call raises; it never returns other data.", "quantifier": "all requests, applications, networks that cut, delay and lose bytes, concurrent calls and schedules", "why_tests_cant": "any interleaving of several calls, retries and late responses", "anchors": ["ekosis/clients/client_base.py:generate_response_exception/send_message", "ekosis/requests/status.py", "ekosis/clients/persistent_stream_client_base.py", "ekosis/clients/datagram_client_base.py", "ekosis/clients/client_base.py: send_message", "ekosis/clients/stream_client_base.py: _send_message_retry_loop", "ekosis/clients/json/transient_tcp.py", "ekosis/servers/stream_server_base.py: _process_connection", "ekosis/servers/server_base.py: _route_request"]}
{"id": "C98", "title": "Servers do not get stuck", "statement": "A stream connection waits for bytes only while the peer can still send some and nothing complete is unread. A UDP server handles the datagrams that are requests one at a time in the order of arrival, sends each answer to the sender of its request, loses only the answer of a request whose handling raises, and with every completion gets done with the oldest one.", "quantifier": "all byte streams, cuts, datagrams, senders, completion times and handlers that raise", "why_tests_cant": "arrivals and completions interleave without bound", "anchors": ["ekosis/servers/stream_server_base.py:_handle_request", "ekosis/servers/json/udp.py"]}
{"id": "C99", "title": "The log keeps its order", "statement": "What the buffered log handler has written is, after what was in the files before, every record that can be formatted, once, in the order of logging, but for those still in the buffer; a flush leaves none there. A rotation takes away nothing but the oldest backup file, and only when all backups are in use.", "quantifier": "all records, buffer sizes, changes of the size, rotations and flushes", "why_tests_cant": "unbounded histories of records, rotations and settings", "anchors": ["ekosis/logs/buffered_rotating_file_handler.py"]}
{"id": "C100", "title": "Wrapping keeps the words", "statement": "The words of a wrapped text are the words of the text, in order; a line is longer than the width only if it is a single word; line breaks of the text are kept, and other breaks are made only where the next word does not fit.", "quantifier": "all texts, widths and indents", "why_tests_cant": "all strings", "anchors": ["ekosis/cli/argparse_formatter.py"]}
{"id": "C101", "title": "Delivered means accepted, accepted means enqueued", "statement": "Every message that a buffered sender counts as delivered was accepted by the endpoint, with the same key and data and at least as often; whatever the endpoint accepted was enqueued with the sender (or sent by another client); and as long as no task is cancelled and the user code of the endpoint does not raise, a key is accepted at most once for each delivery, for each failed attempt, and for the one being sent.", "quantifier": "all schedules of both applications, of the network and of operators, any messages and other clients", "why_tests_cant": "two applications, their queues, retries and lost responses", "anchors": ["ekosis/sending/buffered_sender_base.py", "ekosis/clients/stream_client_base.py: _send_message_retry_loop", "ekosis/clients/client_base.py: send_message", "ekosis/requests/handler_base.py: attempt_request", "ekosis/requests/buffered_handler_base.py: run"]}
{"id": "C102", "title": "Management requests act on the queue they name", "statement": "A management request changes nothing but the endpoint or sender it names; if there is none of that name it changes nothing and says so.", "quantifier": "all sets of endpoints and senders with any queues, all route keys and operations", "why_tests_cant": "any number of queues in any state", "anchors": ["ekosis/standard_endpoints/buffered_handler_manager.py", "ekosis/state_keepers/buffered_handler_keeper.py", "ekosis/standard_endpoints/buffered_sender_manager.py", "ekosis/state_keepers/buffered_sender_keeper.py"]}
{"id": "C103", "title": "A first shut-down completes and keeps the queues", "statement": "The first shut-down of a buffered endpoint or sender closes its queues at once or as soon as the entry in process is done, whatever its outcome. The application's own way of ending (all tasks cancelled, then the shut-down) closes them exactly once, leaves no task behind, loses exactly the entry in process and the requests not yet pushed, and a restart finds both queues with the same entries.", "quantifier": "all histories before the shut-down, all page sizes but 0, all outcomes", "why_tests_cant": "the shut-down can meet the processing task at any of its steps", "anchors": ["ekosis/requests/buffered_handler_base.py:shut_down/__shut_down_check", "ekosis/sending/buffered_sender_base.py:shut_down", "ekosis/sending/buffered_sender.py", "ekosis/application_base.py"]}
{"id": "C104", "title": "Exit status 0 means that nothing is lost", "statement": "If a run of an application ends with exit status 0, every queue's file holds what the operations on that queue leave and the log has been flushed; and a run that is over ends with status 0 if no server was still being started when it ended, no signal came during the shut-down, every set-up completed, and the body of the application neither returned nor raised.", "quantifier": "all applications, queue contents, sets of tasks and servers, and histories of signals, failures and cancellations", "why_tests_cant": "failures at any point of start, run and end", "anchors": ["ekosis/application_base.py: __exit__, __start, __set_up_*, __shut_down_*", "ekosis/servers/json/tcp.py", "ekosis/servers/json/uds.py", "ekosis/servers/json/udp.py", "ekosis/requests/buffered_handler_base.py: setup, shut_down", "ekosis/sending/buffered_sender_base.py: setup, shut_down"]}
{"id": "C105", "title": "One span for each request and each attempt", "statement": "With the tracing middleware every request for a known route has exactly one span, with the name of its route and the ids of its span key; every attempt at a buffered request has exactly one span, with its number of retries and the ids of its request.", "quantifier": "all histories of requests, attempts, failures and restarts, in any interleaving", "why_tests_cant": "spans are started and ended by different tasks", "anchors": ["ekosis_otlp_traces/ekosis_otlp_traces/middleware.py", "ekosis/requests/request_router.py", "ekosis_otlp_traces/ekosis_otlp_traces/buffered_middleware.py", "ekosis/requests/buffered_handler_base.py"]}
{"id": "C106", "title": "Servers and the run", "statement": "While an application serves all its queues are open and none of its servers has failed; a server whose task serves is listening and no other is. When the run has ended, however it did, no server listens.", "quantifier": "all applications, numbers of servers, and histories of failures, signals and cancellations", "why_tests_cant": "failures at any point of start, run and end", "anchors": ["ekosis/application_base.py: __start, __start_tcp_server, __start_udp_server, __start_uds_server", "ekosis/servers/json/tcp.py", "ekosis/servers/json/uds.py", "ekosis/servers/json/udp.py"]}
{"id": "C107", "title": "Requests that cannot be served run no user code", "statement": "A text that is not JSON is answered with status 100, a JSON object that is not a request with 300, other JSON with 999, a request for an unknown route with 400, and no middleware or endpoint is called for it. No exception but a cancellation raised by user code itself leaves the handling of a request.", "quantifier": "all texts, routing tables, middleware and endpoints", "why_tests_cant": "all byte strings and all user code", "anchors": ["ekosis/servers/server_base.py:_route_request", "ekosis/requests/request_router.py:route_request"]}
{"id": "C108", "title": "IPv4 addresses are recognised", "statement": "is_valid_ipv4_address is true exactly for four decimal numbers up to 255 separated by dots; is_valid_hostname gives an answer for every text but the empty one, and for ASCII texts says yes exactly to IPv4 addresses and to host names (each label possibly followed by a newline).", "quantifier": "all texts", "why_tests_cant": "all strings", "anchors": ["ekosis/util/utility_functions.py: is_valid_ipv4_address, is_possible_valid_ietf_hostname, is_valid_hostname, is_valid_port_number"]}
{"id": "C109", "title": "Flattening leaves nothing out", "statement": "flatten_dictionary has every joined key once, with the last entry that has that key, and nothing else.", "quantifier": "all nested dictionaries, with any texts as keys", "why_tests_cant": "unbounded nesting and keys that contain dots", "anchors": ["ekosis/util/utility_functions.py: flatten_dictionary"]}
{"id": "C110", "title": "The queue tool never does more than it was asked", "statement": "Whatever the arguments, the command line tool for endpoint queues sends at most one request, about a queue and for an action that are among the arguments; with two actions, or an action on one entry without its key, it sends nothing.", "quantifier": "all argument lists", "why_tests_cant": "all lists of strings", "anchors": ["ekosis/cli/bem.py: do_endpoint_action, main", "ekosis/cli/bsm.py: do_sender_action, main", "ekosis/cli/log.py", "ekosis/cli/stat.py", "ekosis/cli/shared_functions.py", "ekosis/cli/shared_queue_argument_parser.py", "ekosis/cli/senders/*", "ekosis/standard_endpoints/*"]}
{"id": "C111", "title": "No handler gets an argument it does not declare", "statement": "A handler that is called gets, of the arguments offered, exactly those it declares by name, whatever its signature.", "quantifier": "all signatures and sets of arguments", "why_tests_cant": "all signatures", "anchors": ["ekosis/requests/standard_handler.py", "ekosis/requests/buffered_handler.py"]}
{"id": "C112", "title": "No two queues share a file", "statement": "An application starts exactly when no two endpoints share a route key; whatever is declared, no database file is used for two queues; a queue has the same files after a restart with other declarations around it; and everything that was set up is shut down, once.", "quantifier": "all sets of declarations and configurations", "why_tests_cant": "all names and their encodings as file names", "anchors": ["ekosis/requests/buffered_endpoint.py", "ekosis/sending/buffered_sender.py", "ekosis/state_keepers/buffered_sender_keeper.py: add_buffered_sender", "ekosis/requests/request_router.py: register_handler", "ekosis/application_base.py", "ekosis/queues/pending_queue.py"]}
{"id": "C113", "title": "Every message of a buffered sender is accounted for", "statement": "At every moment every message enqueued, and every one found at the start, is exactly once pending, in hand, in the error queue, delivered, removed by an operator, dropped as a duplicate of one pending, or lost to an exception or cancellation; whatever exceptions sending raises and whatever operators do.", "quantifier": "all schedules, exceptions, operator requests and page sizes but 0", "why_tests_cant": "a message changes its place in any interleaving of tasks and requests", "anchors": ["ekosis/sending/buffered_sender_base.py:enqueue/__do_queue_processing"]}
{"id": "C114", "title": "Reported log records have the content of the log call", "statement": "Every log line that the formatter writes converts into a record with the severity, message, source location and ids of the log call; a batch of lines becomes one message with one record for each line, in order; moments that differ are written differently.", "quantifier": "all records, applications, span keys and moments up to the end of the calendar", "why_tests_cant": "all texts and moments", "anchors": ["ekosis/logs/otlp_formatter.py:OtlpFormatter.format", "ekosis_log_shipper/src/otlp_envelope.cpp:parse_iso8601_to_unix_nanos", "ekosis/logs/otlp_formatter.py", "ekosis/data_transfer_objects/otlp_log_record.py", "ekosis_log_shipper/src/otlp_envelope.cpp"]}
{"id": "C115", "title": "A request that is passed on is not lost over two applications", "statement": "If the function of a buffered endpoint passes its requests on through a buffered sender (under the request's span key; returning True once it has sent, False without sending), every request the endpoint accepted is still with it, or the message it is passed on as is with the sender or with the buffered endpoint of the application it is sent to.", "quantifier": "all schedules of both applications, network losses, retries, numbers of requests, operator requests and translations of the data", "why_tests_cant": "two queues, a network and user code interleave; a test sees one of unboundedly many schedules", "anchors": ["ekosis/requests/buffered_handler_base.py", "ekosis/sending/buffered_sender_base.py", "ekosis/sending/buffered_sender.py", "ekosis/clients/stream_client_base.py"]}
{"id": "C116", "title": "Passing on sends every processed request exactly once", "statement": "Under the same discipline a buffered sender is given the message of every successfully processed request exactly once, and besides only what its other callers send and messages of requests that are in process or were lost when their function raised or was cancelled.", "quantifier": "all runs, including those with exceptions, cancellations and shut-downs", "why_tests_cant": "all interleavings of processing, sending and retries", "anchors": ["ekosis/requests/buffered_handler_base.py", "ekosis/sending/buffered_sender.py"]}
{"id": "C117", "title": "A request that is passed on is handled at most once", "statement": "The second application accepts and processes a request that is passed on to it at most once, however often the first application's function was called for it.", "quantifier": "all schedules, network losses and retries in both applications", "why_tests_cant": "each of three parties retries on its own", "anchors": ["ekosis/requests/buffered_handler_base.py", "ekosis/sending/buffered_sender_base.py", "ekosis/clients/stream_client_base.py"]}
{"id": "C118", "title": "Code that runs for a request sees that request's span key", "statement": "While an endpoint's function (or middleware around it) handles a request, or processes a buffered request, the span key in effect for every log line written by it, or by a task it started (also after the request is over), is that request's (a log handler that formats at once writes it); between requests a connection's lines carry none.", "quantifier": "all numbers of connections, datagrams, endpoints and senders, all interleavings of their tasks, all span keys", "why_tests_cant": "Whether a key leaks from one request into another depends on the interleaving of all tasks of the application.", "anchors": ["ekosis/requests/request_context.py:_current_span_key", "ekosis/servers/server_base.py:ServerBase._route_request", "ekosis/requests/buffered_handler_base.py:BufferedRequestHandlerBase", "ekosis/logs/otlp_formatter.py:OtlpFormatter"]}
{"id": "C119", "title": "Log lines of a buffered sender carry the message's span key", "statement": "A log line written while a buffered sender sends a message carries that message's span key, and lines the framework writes while it works on no request or message carry none.", "quantifier": "all interleavings of requests, senders and endpoints, all messages and span keys", "why_tests_cant": "The sending task outlives the request that started it; which request that is depends on the schedule.", "anchors": ["ekosis/sending/buffered_sender_base.py:BufferedSenderBase.enqueue", "ekosis/requests/buffered_handler_base.py:BufferedRequestHandlerBase", "ekosis/requests/request_context.py:_current_span_key"]}
{"id": "C120", "title": "A log line carries the span key of the request handled, or else of the code that created the task", "statement": "Exactly: a line carries the key of the request (or buffered request) its task is handling; if it handles none, the key that the code which created the task saw when it created it; none if the task is a connection, a datagram or the main task.", "quantifier": "all interleavings of requests, senders, endpoints, heartbeats and user tasks", "why_tests_cant": "As C119.", "anchors": ["ekosis/requests/request_context.py:_current_span_key", "ekosis/sending/buffered_sender_base.py:BufferedSenderBase.enqueue", "ekosis/clients/persistent_stream_client_base.py:PersistentStreamClientBase"]}
{"id": "C121", "title": "A pending request is called after a bounded wait", "statement": "While processing is not paused and nothing fails, a request with n requests before it in a buffered endpoint's queue reaches the endpoint's function by the time the processing task has made 3n+4 steps, whatever other requests arrive and whatever the function returns for the requests before it.", "quantifier": "all histories, queue lengths, positions, interleavings with arriving requests and operator commands, all results of the function", "why_tests_cant": "Starvation shows only under particular traffic; every interleaving and every result counts.", "anchors": ["ekosis/requests/buffered_handler_base.py:BufferedRequestHandlerBase._process_queue", "ekosis/queues/pending_queue.py:PendingQueue"]}
{"id": "C122", "title": "A buffered endpoint drains", "statement": "If no more requests arrive and nothing fails, then after a number of steps that depends only on the attempts left of the queued requests the queue is empty, nothing is in process, and every request ever accepted has been processed successfully, is in the error queue, or was removed by the operator.", "quantifier": "all histories, all queue contents, all results of the function", "why_tests_cant": "Termination for every sequence of results and every queue content is not a finite set of cases.", "anchors": ["ekosis/requests/buffered_handler_base.py:BufferedRequestHandlerBase._process_queue"]}
{"id": "C123", "title": "Bounded waiting in a buffered sender", "statement": "While sending is neither paused, cancelled nor shut down, a pending message with n messages before it is handed to the client at the latest when the sending task has ended its next 2n+3 waits and sends, however those sends end and whatever is enqueued or commanded meanwhile.", "quantifier": "all histories of the sender, all positions in the queue, all outcomes of sends, all interleavings", "why_tests_cant": "Starvation depends on unbounded histories and interleavings; tests only see a few of them.", "anchors": ["ekosis/sending/buffered_sender_base.py:BufferedSenderBase"]}
{"id": "C124", "title": "A buffered sender drains", "statement": "If nothing more is enqueued, then however the sends end (success, busy server, given up, any other exception) after a number of steps that depends only on the attempts left of the queued messages nothing is pending or in hand, and every message ever enqueued has been delivered, is in the error queue, or was removed by the operator.", "quantifier": "all histories, all queue contents, all sequences of outcomes of sends", "why_tests_cant": "Termination for every sequence of outcomes and every queue content is not a finite set of cases.", "anchors": ["ekosis/sending/buffered_sender_base.py:BufferedSenderBase"]}
{"id": "C125", "title": "Recovery after an outage", "statement": "Whatever the network did to a buffered sender and the buffered endpoint it sends to - lost requests, lost answers, time-outs, in any order and for any time - once the network works again the two applications can get everything through without an operator: every message that was pending is delivered, only the one message that was being sent may end in the sender's error queue, both queues become empty, and every message the sender ever had has then been processed by the endpoint or is in one of the two error queues (or was taken out of one by an operator).", "quantifier": "all histories of both applications and the network without cancelled tasks or raising user code, all retry limits, all queue contents with distinct span keys", "why_tests_cant": "a test can simulate one outage; that no sequence of losses, time-outs and half-finished calls leaves the pair in a state it cannot leave must hold for every history", "anchors": ["ekosis/sending/buffered_sender_base.py:BufferedSenderBase", "ekosis/clients/stream_client_base.py:StreamClientBase", "ekosis/requests/buffered_handler_base.py:BufferedRequestHandlerBase"]}
{"id": "C126", "title": "The shipper passes only acknowledged lines", "statement": "The log shipper's saved position never lies after a line that the collector has not acknowledged with a status between 200 and 299. A post that ends any other way (no client handle, a transport error, a timeout, any other status) leaves the saved position as it was; the same lines are posted again before anything else, and one message with the collector's status and words, or the reason why there are none, is written for each. When the collector accepts everything, every complete line written is acknowledged, exactly once if the process was not killed.", "quantifier": "all sequences of appends, rotations that the shipper sees, kills, restarts and answers of the collector", "why_tests_cant": "Which posts fail, how, and at which point of a rotation or crash they do is unbounded; a test fixes one sequence of answers.", "anchors": ["ekosis_log_shipper/src/http_sender.cpp: HttpSender::post_json", "ekosis_log_shipper/src/main.cpp: main", "ekosis_log_shipper/src/state_store.cpp: StateStore::save"]}
{"id": "C127", "title": "Messages between two applications survive crashes of both up to a bound", "statement": "An application sends messages through a buffered sender to a buffered endpoint of another application. Both processes die at any moments (between any two commits, while sending, while settling a delivery, while accepting a request, during shut-down and start-up) or end gracefully, any number of times, and are started again on the files they left; the network loses and delays what it likes. At every moment each message ever enqueued is with the sender, with the endpoint, dropped as a duplicate or lost to a failure in one of them, or among those lost by crashes; the latter are at most four pages and two messages per crash, plus, for the endpoint, what it had accepted but not yet queued. What the sender took for delivered was accepted by the endpoint, also across crashes, and what the endpoint accepted was enqueued with the sender or requested by another client.", "quantifier": "all event orders of both applications and the network, all crash points of both processes, any number of lives with any page sizes", "why_tests_cant": "Tests kill one process at a few points; the combinations of crash points of two processes with a network in between are unbounded.", "anchors": ["ekosis/sending/buffered_sender_base.py:BufferedSenderBase", "ekosis/requests/buffered_handler_base.py:BufferedRequestHandlerBase", "ekosis/queues/paginated_queue.py:PaginatedQueue", "ekosis/clients/stream_client_base.py"]}
{"id": "C128", "title": "A message is processed a bounded number of times, even when both processes crash", "statement": "Between a buffered sender and a buffered endpoint whose processes may both die and be restarted at any moments, a message whose key no other client uses is accepted by the endpoint at most once per attempt of the client, hence at most (client max_retries) times (calls of send_data); a message enqueued once is sent at most max(1, max_retries) times between operator commands that put it back, over all lives of the sender; it is processed successfully at most as often as it was accepted.", "quantifier": "all histories of both processes and the network, all crash points, any number of crashes, all page sizes and retry limits", "why_tests_cant": "duplicates arise from rare combinations of lost answers, retries and restarts", "anchors": ["ekosis/sending/buffered_sender_base.py:BufferedSenderBase", "ekosis/clients/stream_client_base.py:StreamClientBase", "ekosis/requests/buffered_handler_base.py:BufferedRequestHandlerBase"]}
{"id": "C129", "title": "A call over UDP returns the answer to its own request", "statement": "A call of a UDP client's send_message returns what the application answered to that call's own request, or raises one of the documented exceptions for failed communication: never the answer to another call, to another program, or a piece of an answer. An answer that arrives in time is returned.", "quantifier": "all numbers of calls on one client object and their interleavings, other programs that use the server, all losses, duplications, reorderings and delays of datagrams, all requests and applications", "why_tests_cant": "Datagrams carry nothing that ties an answer to a request; which answer meets which waiting call depends on the schedule and on the network.", "anchors": ["ekosis/clients/datagram_client_base.py:DatagramProtocolClient", "ekosis/clients/datagram_client_base.py:DatagramClientBase", "ekosis/clients/json/udp.py:UDPClient", "ekosis/servers/json/udp.py"]}
{"id": "C130", "title": "A request sent over UDP is handled a bounded number of times", "statement": "The application handles the request of one call over UDP at most max_retries times, plus once for each time the network duplicates a request.", "quantifier": "all interleavings of calls, all losses, duplications, reorderings and delays of datagrams, all retry limits", "why_tests_cant": "Each lost or late answer makes the client send again; the bound concerns every combination.", "anchors": ["ekosis/clients/datagram_client_base.py:DatagramClientBase._send_message_retry_loop", "ekosis/servers/json/udp.py"]}
{"id": "C131", "title": "A UDP client has one socket", "statement": "However many calls are made on one UDP client object, it creates one socket.", "quantifier": "all numbers of calls and interleavings", "why_tests_cant": "Whether two calls create sockets at once depends on the schedule.", "anchors": ["ekosis/clients/datagram_client_base.py:DatagramClientBase._send_message"]}
{"id": "C132", "title": "Every call over UDP ends", "statement": "Whatever the network and the server do, and however many calls are made on one UDP client object: while a call has not ended, some call can go on without them (when a socket is there, the lock is free or time has passed), and all calls together go on at most 4 * max_retries times each. So every call ends.", "quantifier": "all interleavings of calls, cancellations, losses, duplications, reorderings and delays of datagrams, all retry limits", "why_tests_cant": "A call that waits for the client's lock depends on what every other call does with it; a deadlock shows only under particular schedules.", "anchors": ["ekosis/clients/datagram_client_base.py:DatagramClientBase._send_message", "ekosis/clients/datagram_client_base.py:DatagramClientBase._send_message_retry_loop"]}
{"id": "C133", "title": "Every call of a persistent stream client ends", "statement": "On one persistent TCP or UDS client object, with any number of calls and heartbeats, lost connections, late answers and cancellations: while one of them has not ended, some of them can go on without any answer (a connection attempt ends, the read lock is handed on, or time passes), and each goes on at most 5 * max(1, max_retries) times. So every call ends, and nobody waits for ever for the read lock.", "quantifier": "all interleavings of calls, heartbeats, cancellations, answers and connection losses on one client, all retry limits", "why_tests_cant": "Whether a lock is always handed on depends on every path that leaves a read: answer, time-out, lost connection, cancellation, in any order with other calls.", "anchors": ["ekosis/clients/persistent_stream_client_base.py", "ekosis/clients/client_base.py:ClientBase.send_message"]}
{"id": "C134", "title": "Every call of a transient stream client ends", "statement": "Whatever the network, the server and the application do: a call of a transient TCP or UDS client that has not ended can go on without an answer (a connection attempt ends, closing ends, or time passes), and goes on at most 4 * max_retries times.", "quantifier": "all histories of calls, byte deliveries, losses, cancellations and server behaviour, all retry limits", "why_tests_cant": "A test waits for one answer or one time-out; that no order of events leaves a call waiting or retrying for ever concerns all of them.", "anchors": ["ekosis/clients/stream_client_base.py", "ekosis/clients/client_base.py:ClientBase.send_message"]}
{"id": "C135", "title": "A transient client closes the connections it opens", "statement": "When a call of send_message on a transient TCP or UDS client has ended, the client has closed every connection it opened for that call. (False: an attempt that times out, is cancelled or fails leaves its connection open for ever; all others are closed, so at most one per failed attempt is left.)", "quantifier": "all histories of calls, byte deliveries, losses, cancellations and server behaviour, all retry limits", "why_tests_cant": "A test sees one call return; sockets left open show only after many failures, and which paths close depends on where the attempt fails.", "anchors": ["ekosis/clients/stream_client_base.py:StreamClientBase._send_message", "ekosis/clients/stream_client_base.py:StreamClientBase._send_message_retry_loop"]}
{"id": "C136", "title": "A persistent client keeps one connection", "statement": "At any time at most one of the connections that a persistent TCP or UDS client has opened is still open. (False: first calls made at the same time open one each; two calls in progress on a connection that is lost both replace it; a heartbeat that reads a late response gives up a working connection. The client never closes the one it replaces, so their number is unbounded. True for calls one after the other without heartbeats, or with heartbeats and no timeout; and in every schedule a call opens at most two connections per attempt.)", "quantifier": "all schedules of concurrent calls, heartbeats, losses, timeouts and cancellations, all retry limits", "why_tests_cant": "A test sees that calls succeed; the sockets left behind and the order of suspension points that leaves them are invisible to it.", "anchors": ["ekosis/clients/persistent_stream_client_base.py:PersistentStreamClientBase.__check_connected", "ekosis/clients/persistent_stream_client_base.py:PersistentStreamClientBase._send_message_retry_loop", "ekosis/clients/persistent_stream_client_base.py:PersistentStreamClientBase.__do_heartbeat"]}
{"id": "C137", "title": "Queues work with every span key", "statement": "Every span key that can be read from a message can be used with a queue, and a queue used with span keys is a first-in first-out list that holds each key once, through restarts and crashes: keys that differ in either half never share an entry, and what is popped or inspected carries the key it was pushed with. (The first half is false: a span id may be written with a minus sign, and every use of such a key raises OverflowError; such a call leaves the queue as it was.)", "quantifier": "all sequences of queue calls with all keys and values, all page sizes, a restart or crash after any of them, all texts of keys", "why_tests_cant": "A test uses a few random keys; that no two of the 2^192 keys collide and that the calls with malformed keys leave no trace in any history needs an argument for all of them.", "anchors": ["ekosis/queues/paginated_queue.py:PaginatedQueue", "ekosis/data_transfer_objects/json_protocol.py:SpanKey"]}
{"id": "C138", "title": "The span key given to a sender function is the one sent", "statement": "A function decorated with sender or buffered_sender sends (or enqueues) exactly one message per call that returns, nothing if the call fails, and the message carries the span key that the function was given. (The last part is false: only a key given by the name span_key is used; one given by position or as the default of the parameter is seen by the function, but the message gets a new key.)", "quantifier": "all signatures of decorated functions, all arguments by position and by name, all function bodies, clients and queues", "why_tests_cant": "A test calls a few functions with a few argument lists; that no other combination of parameters, defaults, *args and **kwargs changes the key needs an argument over all of them.", "anchors": ["ekosis/sending/sender.py:sender", "ekosis/sending/buffered_sender.py:buffered_sender", "ekosis/sending/buffered_sender_class.py:BufferedSenderClass.push_message", "ekosis/clients/client_base.py:ClientBase.send_message"]}
{"id": "C139", "title": "Text of every script arrives as it was sent", "statement": "A string of any Unicode characters in a message arrives as the same string, over every transport and through every queue; nothing in it can be taken for the end of a message or for a heartbeat; received bytes are accepted as text only if they are the one encoding of it; and every string that can be read from a message can be sent in one. (The last part is false: half of a character beyond 0xFFFF, written as an escape, is read by json.loads and cannot be encoded.)", "quantifier": "all strings of all code points, all byte strings", "why_tests_cant": "Tests use ASCII text; the cases that matter (lengths of encodings, surrogates, overlong forms, control characters) are ranges of over a million code points and their combinations.", "anchors": ["ekosis/clients/client_base.py:ClientBase.send_message", "ekosis/clients/stream_client_base.py:StreamClientBase", "ekosis/clients/persistent_stream_client_base.py:PersistentStreamClientBase", "ekosis/clients/datagram_client_base.py:DatagramClientBase", "ekosis/servers/stream_server_base.py:StreamServerBase", "ekosis/servers/server_base.py:ServerBase", "ekosis/queues/paginated_queue.py:PaginatedQueue"]}
{"id": "C140", "title": "The command line tools do only what was spelled out", "statement": "Whatever the arguments, the tool for the queues of endpoints sends at most one request; it is about the queue, the operation and the key that the arguments give, and the operation is spelled out by one of its two names. Two different operations on one command line: nothing is sent. Proper command lines are understood by all tools in every order; an application has the instance id that was given. (Spelling out is false: any beginning of a name that begins no other name will do, so that -c, the option of applications for their configuration file, clears the errors of a queue.)", "quantifier": "all lists of arguments, with abbreviations, joined options, values behind = and --", "why_tests_cant": "Tests try the documented options; what else argparse takes for an option that deletes requests ranges over all words.", "anchors": ["ekosis/cli/bem.py:do_endpoint_action", "ekosis/cli/bsm.py:do_sender_action", "ekosis/cli/log.py:main", "ekosis/cli/stat.py:main", "ekosis/cli/shared_argument_parser.py:argument_parser", "ekosis/cli/shared_queue_argument_parser.py:setup_shared_options", "ekosis/configuration/argument_parser.py:argument_parser"]}
{"id": "C141", "title": "A scrape shows the calls of the last gathering period", "statement": "Whatever a service counted and however often it gathered, the metric ekosis_endpoint_call_count of an endpoint is the number of calls recorded between its last two gatherings, under the name and instance of the service and the group and name of the endpoint; uptime, period and percentiles are those of the same moment, no calls are shown of endpoints that do not exist, and the failure of other services changes nothing. Over all reports no call is lost and none is counted twice. (That every endpoint appears is false: one whose route key has no dot, or more than one, does not.)", "quantifier": "all sequences of calls of the statistics keeper with names none of which lies below another, all gatherings, all sets of services scraped together", "why_tests_cant": "Tests of the keeper look at a tree after a few calls and tests of the translator at a tree written by hand; that the one produces what the other expects ranges over all histories.", "anchors": ["ekosis/state_keepers/statistics_keeper.py:StatisticsKeeper", "ekosis/standard_endpoints/statistics.py", "ekosis_prometheus/ekosis_prometheus/stats_translator.py:translate_gathered_stats", "ekosis_prometheus/ekosis_prometheus/scraper.py:EkosisPrometheusScraper"]}
{"id": "C142", "title": "Span keys compare as the keys they are", "statement": "Comparing a span key with another key, with a text or with anything else answers whether the other value is that key, whichever stands on the left; a key equals itself; values equal to a third are equal; equal values have equal hashes, so that dictionaries and sets find them. (All of this is false of some values: comparing with a text that is no key raises ValueError; a key accepted with a signed span id raises OverflowError when compared with itself; two spellings of a key are equal to the key but not to each other; and a key and its text are equal with different hashes.)", "quantifier": "all span keys, texts and other values, and all hash functions of the interpreter", "why_tests_cant": "Tests compare a few keys; that == is an equivalence and agrees with the hash quantifies over all triples of values.", "anchors": ["ekosis/data_transfer_objects/json_protocol.py:SpanKey", "ekosis/data_transfer_objects/span_id.py:SpanId"]}
{"id": "C143", "title": "One application, one router, one keeper of each kind", "statement": "Calling AppConfiguration, RequestRouter, StatisticsKeeper, ErrorStateList or another singleton class of the framework gives the same object everywhere, whatever the arguments, whoever called it first and whatever failed before; different classes have different objects; the object's __init__ has run to its end, once; and calls return. (That this holds of every class with this metaclass is false: a class that is called while its own object is made gets a second object.)", "quantifier": "all sequences of calls, all classes and all behaviours of their __init__, all points of failure", "why_tests_cant": "A test compares two objects; in which order modules and constructors call each other, and which of them fail, is unbounded.", "anchors": ["ekosis/util/singleton.py:SingletonType"]}
{"id": "C144", "title": "Statistics are gathered once per period", "statement": "The first gathering comes one gather period after the start and each other one period after the one before it, never earlier, and later only by the delays of the sleeps; none is left out; the rest of the application goes on meanwhile; after the keeper is left or its task is cancelled nothing is gathered and the loop ends within a second. (For every configured period this is false: with a period of 0 or less the loop never waits, and the process does nothing else any more.)", "quantifier": "all periods, all lengths of sleeps, all orders of wake-ups, changes of the period, stops, cancellations and failures", "why_tests_cant": "A test waits for one or two periods; regularity over all histories, and that nothing else is starved, are statements about unbounded runs.", "anchors": ["ekosis/state_keepers/statistics_keeper.py:StatisticsKeeper.gather_statistics", "ekosis/application_base.py:ApplicationBase", "ekosis/configuration/config_models.py:ConfigStatisticsKeeper"]}
{"id": "C145", "title": "A persistent client is never silent for long", "statement": "From its first call on, a client with a persistent connection is never silent (no call, no answer, no heartbeat) for more than its heartbeat period, apart from the delays of its task and of one heartbeat; and it sends a heartbeat only when the last answer is more than a period old. (The bound is false: the silence can last two periods, and for ever after a heartbeat that raised, until the next call.)", "quantifier": "all heartbeat periods, all times of calls, answers, wake-ups, acknowledgements and failures, all delays", "why_tests_cant": "A test lets one period pass after one call; how calls and looks at the clock interleave over a long life is not sampled.", "anchors": ["ekosis/clients/persistent_stream_client_base.py:PersistentStreamClientBase.__heartbeat_check", "ekosis/clients/persistent_stream_client_base.py:PersistentStreamClientBase.__do_heartbeat", "ekosis/clients/persistent_stream_client_base.py:PersistentStreamClientBase.__check_heartbeat_task"]}
