# Formal model of TheLastCylon/ecosystem in Rocq (Coq 8.16.1)

## Layout

`rocq/theories/` holds, per area, up to four files:

* `<Area>Model.v`  – the code, function by function; every definition cites the file and lines of `/repo` it models.
* `<Area>Spec.v`   – a small independent specification (plain lists, plain arithmetic), written without the model's helpers.
* `<Area>Proofs.v` – lemmas and invariants.
* `<Area>Props.v`  – the property theorems (ids in comments), each followed by `Print Assumptions`, and beside each an
  `Example` showing that a concrete, non-trivial case meets its hypotheses.

A property of the code that turns out to be false is kept in view: the full statement is a `Definition`, a theorem
`..._refuted` proves its negation with a computed witness, and the part that is true is `..._partial`.

## Modelling conventions

* Python objects with identity that the code compares with `is` are modelled with identity (queue pages: an `aliased`
  flag / page references; LRU nodes: a heap of nodes).
* Exceptions are values. Every function that can raise returns a result type with an explicit error constructor.
* `async` functions without an inner suspension point are atomic. Suspension points of the buffered handler and sender are
  explicit: the state holds the tasks and their program counters, a schedule is an arbitrary list of events, and theorems
  quantify over all schedules.
* SQLite is a list of records with a primary key and a unique column; a write that violates a constraint is an explicit error.
  A commit is atomic. A crash keeps exactly the committed table.
  The pairs of queue files a history can leave (`pfiles` in `PendingModel.v`) include those of crashes between any two
  commits of a call, a shut-down or a start-up, in particular inside the calls that move error entries back; every
  theorem about endpoints and senders that starts from a `preachable` queue ranges over such histories.
* User code (handler functions, middleware, DTO classes, transports) is a parameter: an arbitrary function or an arbitrary
  sequence of outcomes.
* JSON text is modelled by `JsonModel.v` (printer and parser) for messages and log lines. In the queue model an entry put in a
  page comes out as the same value.

## Properties: what is modelled and how it is proved

| id | model | method |
|----|-------|--------|
| C01, C02, C08, C09 | `PQueue*`: pages, aliasing, SQLite table with record ids, page_size as an integer | invariant + refinement to a list, induction over operation lists |
| C03, C04, C05, C06, C07 | same, with shut_down, reopen and crash at commit granularity | invariants; order after reopen characterised exactly, FIFO claim refuted and proved up to page_size+1 |
| C10, C11 | `Pending*`: the two queues of PendingQueue on top of `PQueue` | refinement to a pair of lists |
| C12, C19 | handler/sender/keeper management operations over JSON-like values with Python truthiness | case analysis; refutation by falsy payload |
| C13–C18, C21 | `Handler*`: asyncio scheduling of push tasks, the process task, operator commands, shut-down | labelled transition system over arbitrary schedules; invariants by induction |
| C12, C19, C22, C23, C50, C51 | `Sender*`: same for the buffered sender | same |
| C20, C24, C25, C26, C48 | `Router*`: router, middleware manager, server `_route_request`, argument filtering | equational reasoning, induction over middleware / registration lists |
| C27, C52, C53 | `Stream*`: line framing of the stream servers over byte streams and chunkings, with asyncio's StreamReader limit; the UDP server's lock and tasks | invariant over arbitrary event sequences |
| C28, C29, C30 | `Client*`: retry loops of concurrent calls over arbitrary transport outcomes; persistent connections with read lock, reconnects, heartbeats; datagram endpoint with in-flight replies | invariants over arbitrary schedules; refutations by schedules |
| C31, C32, C33 | `SpanKey*`: bytes, hexadecimal, UUID text, Python `int(s,16)` | arithmetic on base-256 / base-16 expansions |
| C34, C35, C36 | `Lru*`: node heap with next/previous references | refutations by computed histories; invariants for the part that holds |
| C37, C38, C39 | `Stats*`: statistics tree, gather loop, `statistics.quantiles` over rationals | induction; order reasoning |
| C40 | `ErrState*` | induction over operations |
| C41, C54–C56 | `Config*` | case analysis over environments; string splitting by induction; `ECOENV_` naming ambiguities refuted |
| C42, C61, C62 | `LogBuf*`: buffer, rotation, span stamping, signals at every point of a flush | invariant; refutations |
| C43 | `Shipper*`: inodes, offsets, rotation, state store | invariant over interleavings |
| C63, C64 | `Json*`, `Wire*`: printer and parser of JSON text, span keys in JSON, request and response texts | structural induction on values; composition with `Stream*`, `SpanKey*`, `Router*`, `Client*` |
| C65, C66, C67 | `Envelope*`: the log formatter, the calendar of Lib/datetime.py, sscanf, timegm, the shipper's conversion | arithmetic of the calendar; composition with `Json*` and `Shipper*` |
| C68, C69 | `Trace*`: the tracing middleware for requests and for buffered processing, as an event system | invariants over all histories: span per purpose, links to parents, dictionary contents; counterexample histories |
| C70, C71 | `Manage*`: the management endpoints and keepers over the queues of `HandlerModel` and `SenderModel`, several of each in one application | refinement of every management request to a queue that is two lists and its pauses, after every history |
| C72 | `Cli*`: the command line tools from their arguments to the request on the wire, and the reading of it by the application; argparse as a table of options | induction over argument lists and groups of arguments in any order; a finite check per operation; inverse direction by an invariant of what the parser has collected |
| C73, C74 | `Files*`: what the decorators register, what is set up at the start and the names of all files | invariant over the list of declarations; unique reading of names from either end |
| C75–C77 | `Life*`: start, servers, signals, failures and shut-down of an application with its queues (those of `PQueueModel`) | invariant over event lists; the shut-down is evaluated for every state that satisfies it |
| C78–C80 | `Delivery*`: `SenderModel` of one application and `HandlerModel` of another, joined by the client's retry loop and transient stream connections that lose and delay requests and answers | a run of both is a run of each (so C15–C23, C50 apply); invariant over event lists that relates connections to what was sent, accepted and delivered |
| C81–C83 | `Util*`: the checks of texts, `flatten_dictionary`, the name of an application, on lists of code points | round trips between splitting and joining, induction over texts and nested dictionaries |
| C44, C57–C59 | `Prom*` | translation proved equal to an inductive specification; registry as a map; discovery against `ConfigModel` |
| C45 | `Wrap*` | induction over words |
| C84, C85 | `Crash*`: any number of lives of a buffered endpoint, each ended between any two commits of an event, of shut-down or start-up, or gracefully | the micro steps of the handler invariant, re-read on the files: what is on disk is part of what was queued, and the rest is bounded by the pages |
| C86, C87 | `SCrash*`: the same for buffered senders | the invariants of the sender's abstract machine carried over lives, with what a crash took recorded as lost |
| C88, C89, C90 | `Ask*`: calls of a transient stream client, each attempt a connection whose bytes travel in arbitrary pieces to the server model and back | an invariant that ties each connection to the request of its call and each text in the client to what the application answered on that connection; a proper prefix of a printed JSON object does not parse |
| C91, C92 | `Fleet*`: the loop of the log shipper over all files of the directory | the invariant of each file carried through the common loop; a measure over the loop's remaining visits for the progress; an invariant of a loop that cannot get past a file |
| C125 | `Recovery*` (on top of `DeliveryModel`): both applications and the network, from any state a history of losses leads to | a run that empties both queues is constructed by induction on the pending list of the sender, then by the measure of C122 on the endpoint; accounting by C78 |
| C126 | `HttpSender*`: the HTTP client of the shipper, libcurl as an oracle, on top of `Shipper*` | histories with answers mapped to histories of `Shipper*`; invariants for the batch in hand, the posts and the complaints |
| C127 | `BothCrash*`: the two applications of `Delivery*`, each dying at the points of `Crash*`/`SCrash*` and started again on its files | the lives of each side are lives of `SCrash*` and `Crash*`; the invariant of `Delivery*` about the connections is kept by crashes of either side |
| C128 | the same histories as C127 | invariant: connections opened for a key are at most the client's attempts per call times the calls of send_data, minus what the present call has left; attempts from C87, acceptance from the invariant of C127 |
| C129 | calls on one UDP client object, the network (loss, duplication, reordering, delay), other programs and the server, as one event system | invariant: each datagram on its way and each text a call ended with is what the application answered to a request of this client; without duplication, and if calls give up only on what is lost, at most the waiting call has something under way; a late answer as witness against the full claim |
| C130 | the same histories | potential: what is on its way, queued and handled for a call, against the attempts it has left |
| C131 | the same histories | invariant with the calls in create_datagram_endpoint; a race as witness |
| C132 | the same histories | measure: four times the attempts left plus the phase of each call; invariant: the queue of the lock holds exactly the waiting calls, and who holds the lock awaits an answer |
| C133 | the persistent client of ClientModel.v | measure: five times the attempts left plus the phase of each task; invariant: the queue of the read lock holds exactly the waiting tasks, and its holder is in readline; a step lowers the measure of one task and leaves the others |
| C134 | the histories of AskModel.v | measure: four times the attempts left plus the phase of the attempt |
| C135 | the histories of AskModel.v; closing is entering the phase after a read | refuted by a time-out followed by a success; invariant on histories: a set of possibly open connections, one for each failed attempt; a connection in no call's hands stays so |
| C136 | the schedules of ClientModel.v; a connection is open if it was opened and not lost | refuted by families of schedules for every number of connections; invariant under one call at a time: all connections but the current one are lost, and that one too while the client is not connected; allowance of connections per task for the bound |
| C137 | the queue of PQueueModel.v with span keys in front of the numbers that stand for them | keys and numbers below 2^192 correspond one to one; a step on keys is a step on numbers, so C01, C03 and C05 carry over to lists of span keys; a key without bytes raises before anything changes |
| C138 | `Fn*`: Python's binding of arguments to parameters and the wrappers made by `sender` and `buffered_sender`; function bodies, client and queue are parameters | induction over the parameter and argument lists: what is bound to a name by each phase of the binding |
| C139 | `Uni*`: strings as lists of code points; UTF-8 encoder and decoder, serde_json's escapes, CPython's scanner of JSON strings | case analysis on the ranges of code points with linear arithmetic; induction on texts; the byte-level functions of `JsonModel.v` commute with the encoding |
| C140 | `Arg*`: argparse as it reads the arguments of the tools and of an application, word by word; the tools of `CliModel` behind it | induction over argument lists with the classification of words; where every value in the Namespace came from; words for a name by enumeration of its beginnings; the parser of `CliModel` agrees where it reads |
| C141 | `Scrape*`: no new model; the keeper of `StatsModel`, its endpoint, and the translation and scrape of `PromModel` one after the other | unique keys and the layout of the report as invariants of the keeper; the counter of C38 as a number of calls; then C44 and C58 |
| C142 | `SpanEq*`: `SpanKey.__eq__` and `__hash__` with Python's rule for asking the operands of `==`; the interpreter's own hashes are arbitrary functions | the bytes of C31 and the texts of C32; a text in the usual form is read as its key; cases for triples |
| C143 | `Single*`: `SingletonType.__call__` with arbitrary `__init__` scripts that call such classes, Python's recursion limit as depth | invariant over nested calls: what was returned is what the dictionary holds; entries are never replaced when classes are layered |
| C144 | `Gather*`: the loop of `gather_statistics` between its suspensions, with times; what a gathering does is `StatsModel` | invariant: seconds slept = period * gatherings + count of the current sleep loop; a loop without suspension lets no event happen |
| C145 | `Beat*`: the heartbeat task of a persistent client with times; what a heartbeat does on the connection is `ClientModel` | invariant: the task's last suspension is at most max(period, heartbeat length) after the latest activity |
| C123, C124 | `SProgress*` (on top of `SenderModel`): steps of the sending task | as C121 and C122, two steps (wait, send) per attempt left, for every outcome of a send |
| C121, C122 | `Progress*` (on top of `HandlerModel`): steps of the processing task | a measure (steps until the request is taken; three steps per attempt left) that every step of the task lowers and no other event raises |
| C118 to C120 | `Ctx*`: the ContextVar of the current span key, with a context per task copied at creation, over connections, processing tasks, sending tasks, heartbeats and user tasks | an invariant that ties each task's value to the trace, by induction over the events; the exact key of every line follows; the full C119 is refuted by two runs |
| C115 to C117 | `Relay*`: a buffered endpoint whose function sends through a buffered sender to a second application (on top of `HandlerModel` and `DeliveryModel`) | an invariant that links what the sender was given to the requests finished, in or after their call, or lost there; composed with C14 and C78, C79 |
| C93 to C114 | the models of the properties they sharpen | where the claim one would expect is refuted, the exact form that holds without exception is a property of its own; its theorems are those named in MANIFEST.json |
| C46, C60 | `Lock*`: every system call of the start-up check of any number of processes, process ids, crashes | invariant / refutation by interleaving |
| C47 | middleware manager + handler model | induction |

## Trusted base

* Coq's kernel (8.16.1), including its virtual machine (`vm_compute` is used for concrete examples and for a table of 366 days).
* `Print Assumptions` is written below every theorem of every `*Props.v`. For each of them it prints
  "Closed under the global context": no axiom is used. `coqchk` lists in addition the seven `Coq.ssr.ssrunder.Under_rel.*`
  fields, which come from a module type of the standard library's ssreflect plugin loaded by `Coq.micromega`; no theorem uses them.
* The correspondence, by reading, between the model and the code. Every definition cites what it models; where it simplifies,
  its comment says so.

### Modelled

| code | model |
|------|-------|
| `queues/paginated_queue.py`, `queues/pending_queue.py` | `PQueueModel`, `KQueueModel` (with span keys), `PendingModel` |
| the strings in messages as Unicode text (`str.encode`, `bytes.decode`, string literals of `model_dump_json` and `json.loads`) | `UniModel` |
| `sending/sender.py`, `sending/buffered_sender.py`, `sending/buffered_sender_class.py` | `FnModel` (the wrappers; the registration of the sender is C73's) |
| `requests/buffered_handler_base.py`, `buffered_handler.py` | `HandlerModel` |
| `sending/buffered_sender_base.py` | `SenderModel` |
| `requests/request_router.py`, `handler_base.py`, `standard_handler.py`, `endpoint.py`, `buffered_endpoint.py`, `middleware/*`, `servers/server_base.py` | `RouterModel` |
| `servers/stream_server_base.py`, `servers/json/udp.py` | `StreamModel` |
| `clients/client_base.py`, `stream_client_base.py`, `persistent_stream_client_base.py`, `datagram_client_base.py` | `ClientModel`, `BeatModel` |
| `util/singleton.py` (`SingletonType`) | `SingleModel` |
| `data_transfer_objects/span_id.py`, `json_protocol.py` | `SpanKeyModel`, `SpanEqModel`, `WireModel` |
| `cacheing/*` | `LruModel` |
| `state_keepers/error_state_*.py`, `standard_endpoints/errors.py` | `ErrStateModel` |
| `state_keepers/statistics_keeper.py`, `standard_endpoints/statistics.py` | `StatsModel`, `GatherModel` |
| `configuration/config_models.py` | `ConfigModel` |
| `cli/argparse_formatter.py` | `WrapModel` |
| argparse with the options of `cli/*.py` and of `configuration/argument_parser.py` | `ArgModel` |
| `logs/*`, `standard_endpoints/log_manager.py`, `data_transfer_objects/otlp_log_record.py` | `LogBufModel`, `EnvelopeModel` |
| lock file and exit signals of `application_base.py` | `LockModel`, `LogBufModel` |
| `ekosis_log_shipper/src/main.cpp`, `tracked_file.cpp`, `state_store.cpp`, `otlp_envelope.cpp` | `ShipperModel`, `EnvelopeModel` |
| `ekosis_prometheus/*` | `PromModel` |
| `ekosis_otlp_traces/*` (of the OpenTelemetry SDK only start, attributes, status, end) | `TraceModel` |
| `ekosis/standard_endpoints/buffered_*_manager.py`, `ekosis/state_keepers/buffered_*_keeper.py` | `ManageModel` |
| `ekosis/cli/*` (arguments, clients and requests, not what is printed), `ekosis/standard_endpoints/log_manager.py`, `statistics.py` | `CliModel` |
| `ekosis/requests/endpoint.py`, `buffered_endpoint.py`, `ekosis/sending/buffered_sender.py` (registration), `application_base.py` (set-up and shut-down of queues, file names) | `FilesModel` |
| `application_base.py` (86-128, 186-302), start, serving and stop of `servers/json/tcp.py`, `udp.py`, `uds.py`, effect of termination signals | `LifeModel` |
| `clients/stream_client_base.py` (34-67) and `clients/client_base.py` (65-85) as the link between `sending/buffered_sender_base.py` and `requests/handler_base.py` (27-29), `requests/buffered_handler_base.py` (220-226) | `DeliveryModel` |
| crashes of `requests/buffered_handler_base.py` between the commits of `queues/pending_queue.py` | `CrashModel` |
| crashes of `sending/buffered_sender_base.py` between the commits of `queues/pending_queue.py` | `SCrashModel` |
| `clients/stream_client_base.py`, `clients/json/transient_tcp.py`, `transient_uds.py`, `servers/stream_server_base.py` and `server_base.py` joined by a network | `AskModel` |
| `clients/datagram_client_base.py`, `clients/json/udp.py`, `servers/json/udp.py` and `server_base.py` joined by a network | `DgModel` |
| crashes of two applications with messages on their way between them | `BothCrashModel` (on top of `DeliveryModel`, `SCrashModel`, `CrashModel`) |
| `ekosis_log_shipper/src/http_sender.cpp` | `HttpSenderModel` (on top of `ShipperModel`) |
| `ekosis_log_shipper/src/main.cpp`: the loop over all files | `FleetModel` (on top of `ShipperModel`) |
| what a buffered endpoint's function sends through a buffered sender (`buffered_handler_base.py` 189, `sending/buffered_sender.py` 37-42) | `RelayModel` (on top of `HandlerModel` and `DeliveryModel`) |
| the current span key: `requests/request_context.py`, `servers/server_base.py` 36-53, `requests/buffered_handler_base.py` 179-217, `sending/buffered_sender_base.py` 62-104, `clients/persistent_stream_client_base.py` 98-101, `logs/otlp_formatter.py` 12, 36-37 | `CtxModel`; asyncio tasks with a copied context each; which item a task takes from its queue is free |
| `util/utility_functions.py` (10-17, 27-63), `configuration/config_models.py` (26) | `UtilModel` (case of ASCII letters only; non-ASCII digits are a parameter) |
| pydantic's and nlohmann's JSON text, `json.loads` | `JsonModel` |

### Library functions compared with CPython

Where the model contains a function of CPython's library, it was compared with CPython 3.11 on random texts (outside
/verif, without running any code of the repository): `int(s, 16)`, `int(s)`, `uuid.UUID(s)`, `json.loads`,
`datetime.isoformat`, `os.path.dirname`, `os.path.basename`, `str.encode`, `bytes.decode`, the binding of call arguments and `argparse`. This is a test of the model, not part of any proof. The
only difference left is the one stated in `JsonModel.v`: escapes of surrogates are rejected there (`UniModel.v` reads them as
CPython does; C139_bytes_read says how the two agree).

### Not modelled

* `examples/`, `benchmarking/`, `tests/`; libcurl itself (a transfer is one event with its outcome)
  and inotify (a poll can happen at any time).
* Of `application_base.py`: assembling the application from configuration; of `asyncio.run`, that it cancels all tasks and waits for
  them is assumed (user code does not resist cancellation).
* Of libraries: of argparse everything but parsers with options of no or one value (`CliModel` has only exact names, `ArgModel` also abbreviations, joined options and `--name=value`), and its messages; SQLite beyond atomic commits of one table; asyncio beyond the order in which ready tasks run (every order is
  allowed), locks, queues of waiters, StreamReader and datagram endpoints; pydantic validation beyond the fields that the code
  declares; sockets beyond bytes that arrive in order; floating point (times and statistics are exact numbers).
* Byte strings that are not UTF-8 are "undecodable" (which ones: C139_decoding); inside decodable texts characters are bytes,
  which for strings in JSON is justified by C139_bytes_written and C139_bytes_read.
* Thread interleavings inside one Python bytecode operation; the code is single-threaded apart from signal handlers, which the
  log model allows at every step of a flush.
