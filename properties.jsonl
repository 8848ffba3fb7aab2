{"id": "C01", "title": "No accepted job is lost or invented", "statement": "For every job id j, at every moment of every run: (number of eval requests for j answered 'accept') + (number of times a registering worker announced j as its current job and was added) = (number of job-status reports for j sent to the frontend) + (number of requests with id j the broker still holds, either waiting in a queue or assigned to a worker).", "quantifier": "every queue manager (single, multi), every configuration, every finite sequence of messages from clients, workers and the timer, every allocation address order, clock and sort tie-break", "why_tests_cant": "The balance must survive every interleaving of evals, inits, done messages of every status, worker expirations and reassignments; a test follows one history.", "anchors": ["src/handlers/broker_handler.cpp: process_client_eval, process_worker_init, process_worker_done, process_timer, reassign_request, check_failure_count", "src/queuing/single_queue_manager.h", "src/queuing/multi_queue_manager.cpp"]}
{"id": "C02", "title": "A job is reported to the frontend at most once per acceptance", "statement": "In every prefix of every run, the number of job-status reports for a job id never exceeds the number of times that job was accepted or announced by a registering worker; in particular a job id submitted once gets at most one final status.", "quantifier": "all runs, all job ids, both queue managers", "why_tests_cant": "Double reports need particular races between expirations, cancellations and done messages.", "anchors": ["src/handlers/broker_handler.cpp: process_worker_done, process_timer, check_failure_count", "src/notifier/reactor_status_notifier.cpp"]}
{"id": "C03", "title": "A request is in exactly one place", "statement": "In every reachable state no request object is held twice: it is not assigned to two workers, not queued twice and not both queued and assigned.", "quantifier": "all reachable states of both queue managers", "why_tests_cant": "Requires an invariant over all histories of reassignment and expiry.", "anchors": ["src/queuing/single_queue_manager.h", "src/queuing/multi_queue_manager.cpp", "src/handlers/broker_handler.cpp: process_timer, reassign_request"]}
{"id": "C04", "title": "Jobs only go to capable workers", "statement": "Whenever the broker sends an eval message to a worker, every header of that job is satisfied by what the worker declared at registration: hwgroup is one of the '|'-separated alternatives, threads is at most one declared thread count, any other header equals one of the declared values.", "quantifier": "all runs, all headers, all workers, both queue managers, including reassignment after expiry or internal error", "why_tests_cant": "Ranges over all byte strings as headers and all dispatch paths.", "anchors": ["src/worker.cpp: check_headers, check_header, match", "src/queuing/single_queue_manager.h: first_idle_worker_selector, assign_request", "src/queuing/multi_queue_manager.cpp: enqueue_request", "src/handlers/broker_handler.cpp: send_request"]}
{"id": "C05", "title": "Client reply protocol of eval", "statement": "For an eval message with a job id and a header block terminated by an empty frame, the client that sent it receives exactly 'ack' followed by exactly one of 'accept' or 'reject', in that order, and no other client receives anything.", "quantifier": "all job ids, header blocks, payload frames, states in which the broker survives the message", "why_tests_cant": "Ranges over all message contents and all states.", "anchors": ["src/handlers/broker_handler.cpp: process_client_eval"]}
{"id": "C06", "title": "Accept iff some registered worker is capable", "statement": "When the broker is not frozen a well-formed eval is accepted exactly when at least one currently registered worker satisfies all its headers, and rejected (with the monitor told FAILED) otherwise; when it is frozen it is always rejected and nothing else changes.", "quantifier": "all reachable states, all well-formed evals, both queue managers", "why_tests_cant": "Equivalence over all states of registry and queue manager.", "anchors": ["src/handlers/broker_handler.cpp: process_client_eval", "src/queuing/single_queue_manager.h: enqueue_request, is_request_assignable", "src/queuing/multi_queue_manager.cpp: enqueue_request"]}
{"id": "C07", "title": "Freeze is exactly the last freeze/unfreeze command", "statement": "The broker rejects evals as frozen iff the most recent freeze/unfreeze command in the history was freeze; no worker message, eval, stats query or timer changes it.", "quantifier": "all histories", "why_tests_cant": "Unbounded histories.", "anchors": ["src/handlers/broker_handler.cpp: process_client_freeze, process_client_unfreeze, process_client_eval"]}
{"id": "C08", "title": "Job payload is forwarded verbatim", "statement": "Every eval message sent to a worker consists of 'eval', the job id, and exactly the frames that followed the empty header terminator in the client's message, in order; metadata and header frames are never forwarded. This also holds for every re-dispatch.", "quantifier": "all runs, all byte contents", "why_tests_cant": "Every dispatch of every history, arbitrary frames.", "anchors": ["src/worker.h: job_request_data", "src/handlers/broker_handler.cpp: process_client_eval, send_request"]}
{"id": "C09", "title": "Bounded re-dispatch", "statement": "A client-submitted request is sent to workers at most max(1, max_request_failures) times in total, however workers fail or die.", "quantifier": "all runs, all configurations, both queue managers", "why_tests_cant": "Needs all interleavings of internal errors and worker deaths, including several deaths in one timer tick.", "anchors": ["src/handlers/broker_handler.cpp: check_failure_count, process_timer, process_worker_done, reassign_request"]}
{"id": "C10", "title": "A worker is given one job at a time", "statement": "An eval is sent to a registered worker only if it had no current job before the message being processed, or the message being processed is that worker's own done report for its current job; a single processed message sends at most one eval to any one worker.", "quantifier": "all reachable states and input messages, both queue managers", "why_tests_cant": "Every state and every message.", "anchors": ["src/handlers/broker_handler.cpp", "src/queuing/single_queue_manager.h", "src/queuing/multi_queue_manager.cpp"]}
{"id": "C11", "title": "Single queue serves the oldest capable job first", "statement": "With the single queue manager, a worker that takes a job from the queue gets one whose recorded arrival time is minimal among all queued jobs the worker is capable of running, whatever order an unstable sort leaves equal times in; jobs not taken stay queued.", "quantifier": "all queue contents, all arrival times, all tie-breaks of std::sort", "why_tests_cant": "std::sort is unstable and the order is unspecified for ties; a test sees one implementation's choice.", "anchors": ["src/queuing/single_queue_manager.h: assign_request, fcfs_job_comparator"]}
{"id": "C12", "title": "Single queue is work conserving unless a worker reports INTERNAL_ERROR", "statement": "With the single queue manager, as long as no worker has reported INTERNAL_ERROR, no worker sits idle while a queued job matches it. The unrestricted claim is false: after an INTERNAL_ERROR report a worker can stay idle beside a matching queued job.", "quantifier": "all runs without INTERNAL_ERROR reports (and a counterexample run with one)", "why_tests_cant": "Liveness-style invariant over all histories.", "anchors": ["src/queuing/single_queue_manager.h", "src/handlers/broker_handler.cpp: process_worker_done"]}
{"id": "C13", "title": "Multi queue: per-worker FIFO and no idle worker with a backlog unless INTERNAL_ERROR", "statement": "With the multi queue manager each worker receives the jobs put on its own queue in the order they were enqueued; as long as no worker has reported INTERNAL_ERROR an idle worker has an empty queue. The unrestricted second claim is false.", "quantifier": "all runs; all runs without INTERNAL_ERROR for the second part", "why_tests_cant": "Invariant over all histories.", "anchors": ["src/queuing/multi_queue_manager.cpp", "src/handlers/broker_handler.cpp: process_worker_done"]}
{"id": "C14", "title": "Multi queue distributes round-robin", "statement": "With the multi queue manager a request goes to the capable worker that was least recently given a request; n consecutive requests that all n registered workers can run go to n different workers.", "quantifier": "all worker populations and request sequences", "why_tests_cant": "Any number of workers.", "anchors": ["src/queuing/multi_queue_manager.cpp: enqueue_request, add_worker"]}
{"id": "C15", "title": "A communicating worker is never expired", "statement": "After any message from a registered worker, timer ticks whose elapsed times sum to at most max_liveness * ping_interval cannot remove that worker (max_liveness >= 1, elapsed times non-negative).", "quantifier": "all states, all sequences of ticks and of other peers' messages", "why_tests_cant": "All tick sequences of all granularities.", "anchors": ["src/handlers/broker_handler.cpp: on_request, process_timer", "src/config/broker_config.cpp"]}
{"id": "C16", "title": "A silent worker is detected in bounded time", "statement": "If a registered worker that was heard from at least once after registration then stays silent, it is removed from the registry once the ticks of at most D ms each sum to more than max_liveness * (ping_interval + D).", "quantifier": "all states and tick sequences with tick length at most D", "why_tests_cant": "All tick sequences.", "anchors": ["src/handlers/broker_handler.cpp: process_timer"]}
{"id": "C17", "title": "Silence directly after registration is never detected", "statement": "The unrestricted version of bounded detection is false: a worker that registers and never sends anything else starts with liveness zero, which wraps around to 2^64-1 on the first missed ping, so it is not removed during the following 2^64-1 missed pings; the same happens when max_liveness is configured as 0.", "quantifier": "all tick sequences with fewer than 2^64 missed pings", "why_tests_cant": "Needs 2^64 steps.", "anchors": ["src/worker.cpp: worker::worker (liveness(0))", "src/handlers/broker_handler.cpp: process_worker_init, process_timer"]}
{"id": "C18", "title": "An expired worker's jobs are each reassigned or reported", "statement": "When a timer tick removes a worker, every request it held is, in the same tick, either held by the queue manager again (and the monitor is told ABORTED) or reported FAILED to the frontend (and FAILED to the monitor); the removed worker is in neither registry nor queue manager afterwards.", "quantifier": "all states and ticks, any number of simultaneous expirations", "why_tests_cant": "Simultaneous expirations of any set of workers.", "anchors": ["src/handlers/broker_handler.cpp: process_timer", "src/queuing/single_queue_manager.h: worker_terminated", "src/queuing/multi_queue_manager.cpp: worker_terminated"]}
{"id": "C19", "title": "Reassignment can target a worker expiring in the same tick", "statement": "It is not the case that a tick only reassigns jobs to workers that survive the tick: a job can be sent to a worker that the same tick removes, costing the job an extra failure.", "quantifier": "counterexample for each queue manager", "why_tests_cant": "Requires two workers timing out on the same tick.", "anchors": ["src/handlers/broker_handler.cpp: process_timer"]}
{"id": "C20", "title": "Ping replies", "statement": "A ping is answered with exactly one message to the pinging identity: 'pong' iff a worker with that identity is registered, 'intro' otherwise; apart from refreshing that worker's liveness nothing changes.", "quantifier": "all states and identities", "why_tests_cant": "All states.", "anchors": ["src/handlers/broker_handler.cpp: process_worker_ping, on_request"]}
{"id": "C21", "title": "Progress messages are forwarded verbatim to the monitor", "statement": "A progress message produces exactly one message, to the monitor, whose frames are the original frames after the command, whoever sent it; no job, queue or statistic changes.", "quantifier": "all states and frame lists", "why_tests_cant": "Arbitrary frames.", "anchors": ["src/handlers/broker_handler.cpp: process_worker_progress"]}
{"id": "C22", "title": "Ignored messages change nothing", "statement": "Messages with an unknown command, done messages from unregistered identities, done messages with too few frames, with a job id different from the worker's current job, with an unknown status, or with a wrong frame count for their status produce no output and leave queues, jobs and statistics unchanged. Commands are interpreted per channel: a client cannot issue worker commands and vice versa.", "quantifier": "all states in which the worker (if registered) has a current job, all messages of these shapes", "why_tests_cant": "Arbitrary frames.", "anchors": ["src/handlers/broker_handler.cpp: on_request, process_worker_done", "src/reactor/command_holder.cpp"]}
{"id": "C23", "title": "Exact conditions under which a message kills the broker", "statement": "From any reachable state the broker survives every message that satisfies an explicit benign-message predicate (enough frames, numeric threads values, a done report only from a worker that has a current job, representable timer value). Conversely each excluded shape is fatal: eval with fewer than three frames, done from a registered worker without a current job, registration with a non-numeric threads header, an empty message.", "quantifier": "all reachable states, all messages, both queue managers", "why_tests_cant": "Absence of exceptions and undefined behaviour over all inputs and states.", "anchors": ["src/handlers/broker_handler.cpp", "src/worker.cpp: count_matcher", "src/main.cpp: main"]}
{"id": "C24", "title": "Header parsing", "statement": "A header frame 'k=v' with no '=' in k is stored as exactly (k, v), including empty v and '=' inside v; a frame without '=' is stored with the whole frame as both name and value; a header whose name starts with 'meta.' goes to the metadata under the rest of the name (first occurrence wins) and never influences which worker is chosen.", "quantifier": "all byte strings", "why_tests_cant": "All byte strings.", "anchors": ["src/handlers/broker_handler.cpp: process_client_eval, process_worker_init", "src/worker.h: request"]}
{"id": "C25", "title": "Repeated registration with unchanged headers is a no-op", "statement": "An init message from a registered identity whose header multiset (in stored order) equals the registered one produces no output and changes nothing except the liveness refresh, even if the hardware group, description or current job differ.", "quantifier": "all states, all such messages", "why_tests_cant": "All states.", "anchors": ["src/handlers/broker_handler.cpp: process_worker_init", "src/worker.cpp: headers_equal"]}
{"id": "C26", "title": "Registration with changed headers leaves two workers with one identity", "statement": "An init from a registered identity with different headers reports an error to the frontend and adds a second worker under the same identity; while the first one is registered no message of that identity ever reaches the second one: its liveness is never refreshed and no done report of that identity is credited to it.", "quantifier": "all states with such a registration", "why_tests_cant": "All subsequent histories.", "anchors": ["src/handlers/broker_handler.cpp: process_worker_init, on_request, process_worker_done", "src/worker_registry.cpp: find_worker_by_identity"]}
{"id": "C27", "title": "Runtime statistics are correct", "statement": "Right after a timer tick the stored statistics equal the true number of queued requests, registered workers, idle workers and busy workers; evaluated-jobs always equals the number of accepted done/OK reports and failed-jobs the number of accepted done/FAILED and done/INTERNAL_ERROR reports in the history; is-frozen is always current.", "quantifier": "all histories", "why_tests_cant": "Unbounded histories.", "anchors": ["src/handlers/broker_handler.cpp: process_timer, process_worker_done, process_client_get_runtime_stats"]}
{"id": "C28", "title": "Hexadecimal worker names are unambiguous", "statement": "Two workers have the same textual description only if they have the same identity and the same description, whatever characters the descriptions contain; the hexadecimal form of an identity is injective although bytes above 0x7f are printed with eight digits. The text printed is exactly this: byte by byte, the byte as a signed char converted to a 32-bit unsigned number, in lower-case hexadecimal with at least two digits.", "quantifier": "all byte strings", "why_tests_cant": "All byte strings.", "anchors": ["src/helpers/string_to_hex.cpp", "src/worker.cpp: get_description"]}
{"id": "C29", "title": "hwgroup matching is membership in the alternatives", "statement": "A request's hwgroup header matches a worker iff the worker's group equals one of the '|'-separated segments of the value, where one trailing empty segment does not count; the matching loop terminates for every value.", "quantifier": "all byte strings", "why_tests_cant": "All byte strings.", "anchors": ["src/worker.cpp: multiple_string_matcher::match"]}
{"id": "C30", "title": "threads matching is numeric comparison modulo strtoul", "statement": "A threads requirement matches a worker iff both parse as unsigned numbers and the requirement is at most one declared count; leading blanks, a sign and trailing garbage are accepted, '-1' means 2^64-1, and a value without leading digits throws.", "quantifier": "all byte strings", "why_tests_cant": "All byte strings.", "anchors": ["src/worker.cpp: count_matcher"]}
{"id": "C31", "title": "Messages are delivered to their addressee with their frames", "statement": "A sequence of outgoing messages that each have at least one data frame is delivered by a ROUTER socket exactly: each connected addressee gets its messages, in order, with exactly their frames. A single message without data frames breaks this: the following message is delivered to the wrong peer. The receiving side takes in multipart messages of any number of frames one by one, exactly as they were sent, and never a frame of the next message.", "quantifier": "all sequences of messages", "why_tests_cant": "All sequences.", "anchors": ["src/reactor/router_socket_wrapper.cpp: send_message, receive_message"]}
{"id": "C32", "title": "The broker never emits a message without frames, except two cases", "statement": "Every message the broker emits has at least one data frame, except (a) with the single queue manager, the reply to a registration that announces a current job, and (b) the forwarding of a progress message with no arguments. In case (a) the next message to any worker is misdelivered.", "quantifier": "all runs, both queue managers", "why_tests_cant": "All runs; the consequence shows on the next, unrelated message.", "anchors": ["src/queuing/single_queue_manager.h: add_worker", "src/handlers/broker_handler.cpp: process_worker_init, send_request, process_worker_progress", "src/queuing/queue_manager_interface.h: add_worker"]}
{"id": "C33", "title": "Queue manager interface contract", "statement": "Both queue managers implement the documented interface: enqueue keeps the request iff some registered worker is capable and assigns it only to an idle capable worker; assign/finished hand out only queued requests the worker is capable of; terminated returns exactly the requests that are no longer held and forgets the worker; cancelled returns the current request and leaves the worker idle. (The single manager violates the documented return value of add_worker.)", "quantifier": "all manager states satisfying the invariant, all operations", "why_tests_cant": "Every state.", "anchors": ["src/queuing/queue_manager_interface.h", "src/queuing/single_queue_manager.h", "src/queuing/multi_queue_manager.cpp"]}
{"id": "C34", "title": "Registry and queue manager agree on the workers", "statement": "In every reachable state the registry, the queue manager's worker collection and its current-job map contain exactly the same workers, each once; no worker that has been removed can ever be assigned a job again.", "quantifier": "all reachable states, both queue managers", "why_tests_cant": "operator[] insertions could resurrect removed workers in some history; needs an invariant.", "anchors": ["src/handlers/broker_handler.cpp", "src/worker_registry.cpp", "src/queuing/single_queue_manager.h", "src/queuing/multi_queue_manager.cpp"]}
{"id": "C35", "title": "Notifications to the frontend are well formed and become one POST", "statement": "Every status notification the broker emits has an even number of frames and is turned by the notifier into a POST to address/type/id with the remaining pairs as parameters; at most four attempts are made, stopping at the first success, with waits of 1, 2, 4, 8 seconds after failures; the notifier never fails. Each failed attempt leaves one critical line in the log, naming the request, the response code and the error.", "quantifier": "all emitted notifications, all sequences of HTTP outcomes", "why_tests_cant": "All outcome sequences and all contents.", "anchors": ["src/handlers/status_notifier_handler.cpp: on_request", "src/notifier/reactor_status_notifier.cpp", "src/helpers/curl.cpp: get_http_query"]}
{"id": "C36", "title": "POST body is unambiguous only without reserved characters", "statement": "If every parameter name and value stands for itself (no '&', no NUL byte, no '+', no '%' followed by two hexadecimal digits) and no name contains '=', a server that reads the POST body as form data gets back exactly the parameters. For the failure of a job this is exact: in every run the frontend reads the failure as reported if and only if its text stands for itself. A worker's failure text can therefore add a second status parameter, or replace the status altogether.", "quantifier": "all parameter maps; all runs and all failure texts", "why_tests_cant": "All byte strings.", "anchors": ["src/helpers/curl.cpp: get_http_query", "src/handlers/broker_handler.cpp: process_worker_done"]}
{"id": "C37", "title": "Asynchronous handler processes every message once, in order", "statement": "For every interleaving of the reactor thread and the handler threads, and for messages with data whose key is not the termination text: every handler acts like a bounded mailbox of its own; once its thread has connected and while the mailbox is not full, the messages handled followed by those in between are exactly the messages passed, in order and unmodified; after an accepted termination message the thread handles everything passed before and then returns. Messages passed before it connects or while the mailbox is full are silently lost; if the termination message is, the thread never returns.", "quantifier": "all interleavings", "why_tests_cant": "Thread schedules.", "anchors": ["src/reactor/reactor.cpp: asynchronous_handler_wrapper"]}
{"id": "C38", "title": "Reactor routing", "statement": "A message whose key names a registered socket is sent on that socket only; otherwise it is passed once to each handler subscribed to its key, in subscription order; each loop iteration serves at most one message per ready socket, in key order, then the asynchronous socket, then one timer message, so no ready socket waits more than one iteration per queued message.", "quantifier": "all socket and handler tables, all poll results", "why_tests_cant": "All tables and schedules.", "anchors": ["src/reactor/reactor.cpp: send_message, process_message, start_loop"]}
{"id": "C39", "title": "Timer text round trip", "statement": "The elapsed time the reactor prints is read back by the broker as the same number for every 64-bit value, negative ones included.", "quantifier": "all 64-bit integers", "why_tests_cant": "2^64 values.", "anchors": ["src/reactor/reactor.cpp: start_loop", "src/handlers/broker_handler.cpp: process_timer"]}
{"id": "C40", "title": "Only poll waiting time is counted", "statement": "Worker expiry depends only on the sum of (truncated) poll waiting times, not on wall-clock time: for every wall-clock duration there is a run of that duration, with a worker silent throughout, in which the worker is never expired.", "quantifier": "all durations", "why_tests_cant": "Arbitrarily long runs under load.", "anchors": ["src/reactor/reactor.cpp: start_loop", "src/handlers/broker_handler.cpp: process_timer"]}
{"id": "C41", "title": "Configuration loading", "statement": "Every setting equals the value in the document if the section is a map and the entry is a scalar that converts, and its documented default if the section or entry is absent or of another kind; loading fails exactly when the document is not a map or some present scalar does not convert.", "quantifier": "all YAML documents, all conversion behaviours", "why_tests_cant": "All documents.", "anchors": ["src/config/broker_config.cpp", "src/config/broker_config.h", "src/broker_core.cpp: broker_init"]}
{"id": "C42", "title": "Log levels are ordered", "statement": "Distinct log level names map to distinct levels, unknown names map to trace, and the comparison is negative, zero or positive exactly as the first level is less, equally or more verbose.", "quantifier": "all strings", "why_tests_cant": "All strings.", "anchors": ["src/helpers/logger.cpp"]}
{"id": "C43", "title": "Output alphabet of the broker", "statement": "Every message the broker emits is one of a fixed list determined by the message it answers: replies to a client go only to the sending client, pong/intro and the first job only to the sending worker, job statuses of a done message name the job of that message and have the status it carries, notifications have one of three shapes, and a tick only hands out jobs, reports final statuses and tells the monitor FAILED or ABORTED.", "quantifier": "all runs, both queue managers", "why_tests_cant": "All runs and all messages; tests check selected replies.", "anchors": ["src/handlers/broker_handler.cpp: on_request and all process_* functions", "src/notifier/reactor_status_notifier.cpp"]}
{"id": "C44", "title": "Exact outcome of a done report", "statement": "When a worker reports the job it currently has: OK makes the broker tell the frontend OK and give the worker its next job; FAILED makes it tell the frontend FAILED with the worker's text and give the worker its next job; INTERNAL_ERROR makes it report FAILED and leave the worker idle if the job was announced at registration, report FAILED to frontend and monitor and give the worker its next job if the limit is reached, and otherwise only hand the job to an idle capable worker or queue it. Nothing else is sent, the statistics and failed attempts change by exactly one, and no other worker's job changes.", "quantifier": "all reachable states, both queue managers, all job ids and texts", "why_tests_cant": "The full reply and state change in every reachable state; tests look at chosen replies in a few states.", "anchors": ["src/handlers/broker_handler.cpp: process_worker_done, check_failure_count, reassign_request", "src/queuing/*"]}
{"id": "C45", "title": "Exact outcome of an eval", "statement": "A well-formed eval to a broker that is not frozen creates one request, with the headers, metadata and payload of the message. If some registered worker is capable, the replies are ack, then possibly the job to an idle capable worker, then accept; otherwise ack, a reject that enumerates the requirements, and FAILED to the monitor, with the queue unchanged. With the single queue a job is queued only if all capable workers are busy; with per-worker queues it may be queued behind a busy worker although a capable worker is idle.", "quantifier": "all reachable states, both queue managers, all messages with numeric thread counts", "why_tests_cant": "All reachable states and all header combinations.", "anchors": ["src/handlers/broker_handler.cpp:86-175", "src/queuing/*"]}
{"id": "C46", "title": "Exact outcome of a worker registration", "statement": "An init with numeric thread counts from an identity without registered worker adds exactly one worker with the identity, hardware group, headers and last description of the message. If it announces a current job the worker has it (the last announcement counts) and the queue stays; otherwise the worker is sent a request that waits for it, or nothing only if none does. Nothing else is sent or changed. If the identity already has a worker with other headers the same happens, after one error naming that worker is sent to the frontend.", "quantifier": "all reachable states, both queue managers, all well-formed init messages", "why_tests_cant": "The full reply and state change in every reachable state; the tests register a few workers in an empty broker.", "anchors": ["src/handlers/broker_handler.cpp: process_worker_init", "src/worker.cpp", "src/queuing/*"]}
{"id": "C47", "title": "Exact outcome of a timer tick", "statement": "A tick removes exactly the workers whose last chance it takes, in order of registration, and nothing else is sent than what follows from that. For each removed worker its current job and the queued jobs that go with it are settled in order: announced jobs and jobs at the limit of attempts are reported FAILED to frontend and monitor; jobs nobody left can run are FAILED for the monitor at once and for the frontend after the others; all others are handed to an idle capable worker or queued, and reported ABORTED to the monitor. Attempts grow by one for the current job of a removed worker only. A tick that removes nobody sends nothing and changes no job.", "quantifier": "all reachable states, both queue managers, all elapsed times", "why_tests_cant": "The full output and state change for any number of workers lost at once in every reachable state; tests lose one worker in small states.", "anchors": ["src/handlers/broker_handler.cpp:383-459 process_timer", "src/queuing/*: worker_terminated, enqueue_request"]}
{"id": "C48", "title": "Start-up and exit status", "statement": "The broker serves exactly if the options are valid and do not ask for help, the configuration file is a map whose present numbers convert, the log opens, the queue manager is single or multi (or not given), and the clients', monitor's and workers' sockets open; before serving it opens just the log, writes the lines of its start to it, initialises curl, and then opens these three sockets at the configured endpoints in that order. If a socket does not open, an exception leaves broker_core::run (C65). In all other cases, also for --help, the process exits with status 1 after the matching line on standard error, and in the log if it is open, and without opening a socket. While serving, what it does is a run of the handlers with the liveness, failure limit and ping interval written in the document (or 4, 3, 1000) on exactly what arrived, and it ends only by an exception of a handler; status 0 never occurs.", "quantifier": "all arguments, files, documents, conversions, log and socket outcomes, oracles and arrival sequences", "why_tests_cant": "main, start-up failures and exit statuses are not covered by the test suite, and a test fixes one configuration and one environment.", "anchors": ["src/main.cpp:7-19", "src/broker_core.cpp:5-146", "src/broker_connect.cpp:5-60", "src/reactor/reactor.cpp:56-70", "src/config/broker_config.cpp"]}
{"id": "C49", "title": "Bounded waiting", "statement": "A waiting job is handed to a worker after a bounded number of reports. With per-worker queues, a job that waits for a worker behind n others is handed to that worker at the latest when the worker, still registered, has reported the end (OK or FAILED) of n+1 jobs. With the single queue, if n other waiting jobs are as old or older and what joins the queue joins later (always true with a clock that never stands still or goes back, where n is the number of jobs before it in the queue), the job is handed out at the latest when workers capable of running it have reported the end of n+1 jobs, as long as some capable worker stays registered.", "quantifier": "all configurations, oracles and reachable states, all continuations of the run with any other messages in between, any number of workers and jobs", "why_tests_cant": "A progress bound over unbounded executions with arbitrary other traffic; tests run a few messages against empty queues.", "anchors": ["src/queuing/single_queue_manager.h:90-109 assign_request, 136-164 enqueue_request", "src/queuing/multi_queue_manager.cpp: worker_finished, assign_request, enqueue_request", "src/handlers/broker_handler.cpp process_worker_done"]}
{"id": "C50", "title": "How a job leaves its worker, and workers whose jobs never do", "statement": "A job leaves the worker it was given to only by a well-formed report (done with OK, FAILED or INTERNAL_ERROR) of that worker about it, or because a timer tick removes the worker; whatever else arrives, it stays. Consequence: a worker that registers under the identity of another registered worker (a restart with changed headers) is hidden while the first one stays registered: no message is attributed to it, it never expires (for fewer than 2^64 ticks), and an accepted job once given to it is never finished, reported or reassigned.", "quantifier": "all runs of the broker with either queue manager, all positions in them, all workers and requests, all continuations", "why_tests_cant": "\"Never\" over all continuations of all histories; a test sees one finite continuation.", "anchors": ["src/handlers/broker_handler.cpp: process_worker_init, process_worker_done, process_timer, on_request", "src/worker_registry.cpp: find_worker_by_identity"]}
{"id": "C51", "title": "What the broker does not look at: payloads, metadata, client identities, names of jobs", "statement": "Take any run and change its inputs: rename the clients arbitrarily, rename the jobs injectively (in submissions, done reports, progress messages and announced current jobs), and replace the payload of every submission and its meta. headers by any others. The broker then makes the same decisions: it answers each message with the same kinds of messages to the same addressees in the same order, with the jobs renamed, and it dies exactly where it died before, of the same cause.", "quantifier": "all runs of the broker with either queue manager, all renamings of clients, all injective renamings of jobs, all payloads and metadata", "why_tests_cant": "It relates every run to infinitely many variants of it; a test compares a few pairs.", "anchors": ["src/handlers/broker_handler.cpp: process_client_eval, process_worker_init, process_worker_done, process_timer, send_request", "src/worker.h: request, job_request_data", "src/queuing/single_queue_manager.h", "src/queuing/multi_queue_manager.cpp"]}
{"id": "C52", "title": "Worker objects are never released", "statement": "The table of ping timers refers to every worker registered since the broker started, exactly once each, whether or not the worker has been removed since. Its keys are shared pointers, so the memory of a worker is never released, and the broker grows with every registration.", "quantifier": "all runs of the broker with either queue manager", "why_tests_cant": "It is about all histories, and the growth shows only after very many registrations.", "anchors": ["src/handlers/broker_handler.h: worker_timers_", "src/handlers/broker_handler.cpp: on_request, process_worker_init, process_timer"]}
{"id": "C53", "title": "What the environment can influence besides its messages", "statement": "With a queue per worker, the messages sent by the broker, and its crashes, are a function of the messages received: they do not depend on the addresses of worker objects (the order of the pointer-keyed maps), the clock or std::sort. With a single queue they depend only on the order of the addresses and of the clock readings, and on how std::sort leaves equal elements only if two readings of the clock coincide; each of the three does matter.", "quantifier": "all pairs of environments, all configurations and all runs", "why_tests_cant": "A test runs with the addresses its allocator happens to hand out and with one clock.", "anchors": ["src/queuing/multi_queue_manager.cpp: all functions", "src/queuing/single_queue_manager.h: all functions", "src/queuing/queue_manager_interface.h", "src/handlers/broker_handler.cpp: all functions"]}
{"id": "C54", "title": "The broker together with workers that follow the protocol", "statement": "Consider the broker together with any number of workers that introduce themselves when they start and when asked to, always stating what they are working on, work on the jobs they are given and report the end of each once; messages take arbitrarily long but stay in order; clients and the timer do anything harmless in itself. Suppose no worker is given up while a request to introduce itself is on its way to it or an introduction on its way from it. Then no message of a worker brings the broker down; a report read from a registered worker is about the job recorded for it; a worker is never given a job while it has one or another is on its way; a recorded job is on its way to the worker, being worked on, or its report is on its way back; with nothing on the way both sides agree; and no two registered workers have the same identity. Without the supposition the broker can be brought down by conforming workers.", "quantifier": "all environments, configurations, both queue managers, all worker declarations with numeric thread counts, all interleavings of worker steps, deliveries, client messages and timer events", "why_tests_cant": "The tests drive the handler with scripted messages; the interleavings of several workers, messages in flight and timer events are unbounded, and the crash needs a worker to be given up twice while two requests for an introduction are in flight.", "anchors": ["src/handlers/broker_handler.cpp: process_worker_init, process_worker_done, process_worker_ping, process_timer, process_client_eval, reassign_request", "src/queuing/multi_queue_manager.cpp", "src/queuing/single_queue_manager.h", "src/worker_registry.cpp"]}
{"id": "C55", "title": "What workers get and the frontend hears goes back to a client", "statement": "In the broker together with workers that follow the protocol: every job on its way to a worker was submitted by a client with exactly this payload and accepted by the broker, and the worker's declaration offers everything the job requires; the same holds for every job a worker is working on, or says it is working on or has finished. The frontend is never told about, and the broker never keeps, a job that was not accepted from a client, although the broker believes whatever job a worker announces.", "quantifier": "all environments, configurations, both queue managers, all worker declarations with numeric thread counts, all interleavings of worker steps, deliveries, harmless client messages and timer events, including workers given up at any time", "why_tests_cant": "The tests never close the loop: they script what workers say. That no job is invented or altered on any path through queues, reassignments, expiries and re-introductions is a statement about unboundedly long interleavings.", "anchors": ["src/handlers/broker_handler.cpp: process_client_eval, process_worker_init, process_worker_done, process_timer, send_request, reassign_request", "src/queuing/multi_queue_manager.cpp", "src/queuing/single_queue_manager.h", "src/worker.cpp"]}
{"id": "C56", "title": "Workers and broker can always finish the work by themselves", "statement": "In the broker together with workers that follow the protocol (no worker given up while an introduction or a request for one is on its way): from every reachable state there is a continuation made only of worker steps and the broker reading their messages, without clients and timer, after which no job is being evaluated, the same workers are registered, and every job still queued waits for a registered worker that has been idle since it reported an internal error. If no internal error was reported or is on its way, the continuation ends with no job left in the broker, and every job has been reported to the frontend as often as it was accepted or announced. With an internal error, the round robin manager can leave a job queued for an idle worker with nothing on its way.", "quantifier": "all environments, configurations, both queue managers, all worker declarations with numeric thread counts, all reachable states of the system", "why_tests_cant": "The statement says that no reachable state is a dead end; it ranges over all states reached by arbitrary interleavings, and needs for each of them a schedule that finishes the work.", "anchors": ["src/handlers/broker_handler.cpp: process_worker_done, process_worker_init, reassign_request, send_request", "src/queuing/multi_queue_manager.cpp: worker_finished, worker_cancelled, enqueue_request", "src/queuing/single_queue_manager.h: worker_finished, worker_cancelled, enqueue_request"]}
{"id": "C57", "title": "The broker, its workers and the socket between them", "statement": "Put the ROUTER socket between the broker and workers that follow the protocol. With the round robin manager, or as long as no registering worker announces a job, the socket never holds half a message and the whole system reaches exactly the states it reaches with messages delivered as sent, so everything C54, C55 and C56 say holds with the socket. With the single queue a worker that comes back with its job makes the broker send a message without frames; the next message for any worker then goes to that one. A job can so be recorded for an idle worker with nothing on its way between them, and with a worker named eval the broker can be brought down by conforming workers.", "quantifier": "all environments, configurations, both queue managers, all worker declarations, all interleavings of worker steps, deliveries, harmless client messages and timer events, every local restriction on giving workers up", "why_tests_cant": "The tests replace the sockets; the misdelivery needs the framing of the ROUTER socket, a worker given up and coming back, and a later message to another worker.", "anchors": ["src/reactor/router_socket_wrapper.cpp: send_message", "src/handlers/broker_handler.cpp: process_worker_init, send_request", "src/queuing/single_queue_manager.h: add_worker", "src/queuing/multi_queue_manager.cpp: add_worker", "src/worker.h: job_request_data"]}
{"id": "C58", "title": "Left to themselves, the broker and its workers come to rest with the work done", "statement": "From every state the broker and workers that follow the protocol can reach, there is a number of steps that no continuation without clients and timer exceeds, in whatever order workers see to their messages and end their jobs and the broker reads, and whether jobs end well or with internal errors; each ping or progress message in between adds at most four steps. As long as they are not at rest something can be done, so rest is reached whatever the schedule. At rest all started workers are idle, the broker believes that nobody works, and jobs wait only for workers left idle after an internal error; without internal errors nothing waits and everything accepted has been reported.", "quantifier": "all environments, configurations, both queue managers, all worker declarations, all reachable states of the system, all schedules of any length", "why_tests_cant": "Termination under every schedule is a statement about infinitely many interleavings; a broker that hands a failing job out for ever, or answers messages with messages that are answered again, passes tests of single steps.", "anchors": ["src/handlers/broker_handler.cpp: process_worker_done, check_failure_count, reassign_request, process_worker_init, process_worker_ping", "src/queuing/single_queue_manager.h: assign_request, enqueue_request", "src/queuing/multi_queue_manager.cpp: assign_request, enqueue_request"]}
{"id": "C59", "title": "Answers of asynchronous handlers reach the reactor in order, or glued together if they have no data", "statement": "For every interleaving of any number of handler threads, the ROUTER socket and the reactor, what the reactor reads of a handler is what that handler sent with send_response, unaltered and in order, up to what is still under way, provided each answer has a data frame. An answer without data frames becomes one message with the next answer, and is never delivered if there is none; other handlers are not affected. Once the socket has a message, reading it does not block; everything complete can be read; if no handler answers (as the notifier does not), nothing is ever read.", "quantifier": "all step sequences of any number of handlers, socket and reactor, all messages", "why_tests_cant": "The framing fault needs an answer without data, which no test handler gives, and order and isolation are statements about all interleavings of threads.", "anchors": ["src/reactor/reactor.cpp:96-116: start_loop", "src/reactor/reactor.cpp:214-222: asynchronous_handler_wrapper::send_response"]}
{"id": "C60", "title": "If all workers fall silent, every job is reported to the frontend in bounded time", "statement": "If every registered worker has been heard of since its registration and from some time on no worker sends anything, then once the times announced by the timer exceed (max_liveness - 1) * (ping_interval + d) + ping_interval, with d the longest tick, no worker is registered, the queue manager holds nothing, and every job accepted or announced, before or during the silence, has been reported to the frontend exactly as often as it was accepted or announced. The broker survives such ticks, and never needs more of them than it takes to exceed that time.", "quantifier": "all environments, configurations with non-negative ping interval and positive liveness, both queue managers, all histories of any length, all client messages during the silence", "why_tests_cant": "It combines expiry of all workers, reassignment among workers that are themselves about to expire, and job accounting over unbounded histories.", "anchors": ["src/handlers/broker_handler.cpp:383-459: process_timer", "src/queuing/single_queue_manager.h: worker_terminated", "src/queuing/multi_queue_manager.cpp: worker_terminated"]}
{"id": "C61", "title": "A job is sent to a worker again only after a failure", "statement": "The eval messages for a job sent to workers, together with its requests that still wait, number at most its acceptances plus the INTERNAL_ERROR reports of workers that had the job plus the times a tick told the monitor that the job is ABORTED. In particular, while no worker is removed and no worker reports INTERNAL_ERROR for it, the job is sent at most once per acceptance.", "quantifier": "all environments, configurations, both queue managers, all histories of any length, all job ids", "why_tests_cant": "It relates counts over unbounded histories with arbitrary interleavings of reports, registrations, clients and ticks, including reassignments to workers that expire in the same tick.", "anchors": ["src/handlers/broker_handler.cpp:261-352: process_worker_done", "src/handlers/broker_handler.cpp:383-459: process_timer", "src/queuing/single_queue_manager.h", "src/queuing/multi_queue_manager.cpp"]}
{"id": "C62", "title": "How many messages the broker sends", "statement": "For a message from anywhere but the timer the broker sends at most three messages, in every state and even if handling it fails. A tick sends at most two messages for each worker it removes and each request the broker holds, and none if it removes no worker. With the single queue the messages sent in a whole run number at most 3 + 2 * max(1, max_request_failures) times the messages received from clients and workers, however often the timer ticks and whichever workers are lost.", "quantifier": "all environments and configurations; all messages and states for the first part; all histories of any length for the other two, both queue managers for the second, the single queue for the third", "why_tests_cant": "The bounds hold over unbounded histories with arbitrarily many jobs and lost workers; tests see particular message counts for a few short scripts.", "anchors": ["src/handlers/broker_handler.cpp:64-555: on_request and the commands it calls", "src/handlers/broker_handler.cpp:383-459: process_timer", "src/queuing/single_queue_manager.h", "src/queuing/multi_queue_manager.cpp"]}
{"id": "C63", "title": "A broker started again among working workers", "statement": "The broker keeps everything in memory. Let it be stopped and started again any number of times, each time possibly with another configuration and queue manager, while its workers follow the protocol and go on; of the messages on the way any may be lost. As long as it is not started again while a request to introduce itself is on the way to a worker or an introduction on the way from one, the workers never bring it down; it never gives a worker a second job while the worker has one, even one given by an earlier broker; it agrees with the workers it knows about what they are working on; what workers evaluate was accepted in this life or an earlier one, and what it hands out was submitted in this life; and left to themselves broker and workers come to rest. A worker at work that pings is asked to introduce itself, and the end of its job, whatever it is, is reported to the frontend exactly once.", "quantifier": "all environments, configurations and queue managers, changing from life to life; all proper workers; all interleavings and lengths; any number of restarts; all losses of messages on the way at a restart", "why_tests_cant": "The claim is about all interleavings of any number of workers with any number of restarts at arbitrary moments; the tests of the repository start one broker handler and feed it a fixed script.", "anchors": ["src/handlers/broker_handler.cpp:64-84: on_request", "src/handlers/broker_handler.cpp:177-369: process_worker_init, process_worker_done, process_worker_ping", "src/queuing/multi_queue_manager.cpp", "src/queuing/single_queue_manager.h"]}
{"id": "C64", "title": "What the log tells", "statement": "Writing the log changes nothing about what the handler does. For each message the broker receives, the lines written, their levels and arguments, and their places between the messages sent are determined by the message and the states before and after. Every line has one of 26 formats with the number of arguments its format needs. A job handed to a worker is directly followed by the line naming both, and there is no such line otherwise. A client is told that its job is refused exactly when an error line with the job says so. A done message is acted on exactly when there is no warning or error about it, and the worker is then called free exactly when it has nothing left to do. A tick reports exactly the workers it removes. Pings, progress and unknown words leave no line. At level info and above the number of lines is bounded by the number of frames or workers. If no frame contains a newline, each call writes one line.", "quantifier": "all environments, configurations, queue managers, message sequences and reachable states", "why_tests_cant": "The tests of the repository pass no logger to the handler or ignore what it gets; whether the log agrees with the messages sent for every reachable state can only be seen by reasoning about all of them.", "anchors": ["src/handlers/broker_handler.cpp:64-555: every call of logger_"]}
{"id": "C65", "title": "How the process ends", "statement": "A broker whose start is refused exits with status 1 after saying why. In all other cases it serves for ever unless a socket cannot be opened or a handler throws. Then the exception destroys the broker_core of main: curl is cleaned up first, although the notifier's thread is still there; then the reactor destroys its socket to that thread before the handlers, whose destructor uses the socket after its end, which is undefined behaviour. So main never catches the exception, the thread is never joined, the lines about the end of the loop are never logged, and the process never ends with status 0 or with status 1 after it has served. Only if reactor::terminate were called, as the tests do, the thread would be joined before curl is cleaned up and main would return 0.", "quantifier": "all arguments, files, documents, log and socket outcomes, oracles and arrival sequences; all orders in which the containers destroy their elements", "why_tests_cant": "No test lets an exception leave the loop; the tests always call terminate, which empties the handlers while the socket is alive.", "anchors": ["src/main.cpp:7-19", "src/broker_core.cpp:20-31,155-161", "src/broker_core.h:108-129", "src/broker_connect.h:25-33", "src/broker_connect.cpp:34-48", "src/reactor/reactor.h:135-219", "src/reactor/reactor.cpp:124,157-167"]}
{"id": "C66", "title": "What the monitor and the frontend hear of jobs that end", "statement": "For every job id in every run: each final status sent to the frontend is OK or FAILED; OK is sent exactly once for each well-formed report OK of a worker about the job it works on. The broker tells the monitor FAILED once for each FAILED it sends to the frontend, except when the worker itself reported FAILED and when it reported INTERNAL_ERROR about a job it had announced when registering; of those the broker tells the monitor nothing. In addition it tells the monitor FAILED for each submission nobody can run. ABORTED is said by timer ticks only. The claim that the monitor is told of every failure is false.", "quantifier": "all runs of any length, all inputs, both queue managers, all oracles and configurations, all job ids (also ids submitted several times)", "why_tests_cant": "The tests check the messages of single steps; that the two channels agree over whole histories, with jobs failing on several ways and ids reused, is a balance no finite set of runs shows.", "anchors": ["src/handlers/broker_handler.cpp:86-175", "src/handlers/broker_handler.cpp:261-352", "src/handlers/broker_handler.cpp:405-445", "src/handlers/broker_handler.cpp:461-515"]}
{"id": "C67", "title": "Fair shares with one queue per worker, and their price", "statement": "With the multi queue manager, between any two points of a run throughout which two workers stay registered and either could run every complete request the broker holds, the numbers of requests the two workers get (new ones, and those taken over from lost workers or handed out again after an error) differ by at most one, whatever other workers come, go and report. The share does not depend on how fast the workers are: for every n there is a run after which one worker has nothing to do while n requests that it could run wait for the other worker.", "quantifier": "all runs of any length with the multi queue manager, all oracles and configurations, all pairs of workers; for the second part all configurations and all n", "why_tests_cant": "The tests enqueue a handful of requests; the balance is a statement about unbounded histories with workers joining, dying and failing in between, and the backlog beside an idle worker is unbounded.", "anchors": ["src/queuing/multi_queue_manager.cpp:3-65", "src/queuing/multi_queue_manager.cpp:67-98", "src/handlers/broker_handler.cpp:86-175", "src/handlers/broker_handler.cpp:447-515"]}
{"id": "C68", "title": "Clients and the registry do not see the queue manager", "statement": "Two brokers that process the same sequence of messages, without crashing, give every client the same answers (statistics apart), answer every ping the same way and forward every progress report the same way, event by event. At the end they know the same workers in the same order, with the same headers, descriptions, remaining liveness and ping timers, and they agree on being frozen. The queue managers, the failure limits and the environments (memory addresses, clocks, random numbers) may differ; only the liveness and the ping interval must agree. Surviving is not shared: a message can kill one of the two brokers and not the other.", "quantifier": "all pairs of runs of any length over the same messages, all oracles, all queue managers, all pairs of configurations with equal ping settings", "why_tests_cant": "It relates pairs of executions that assign the jobs differently, under arbitrary messages; the tests run one queue manager at a time with fixed scenarios.", "anchors": ["src/handlers/broker_handler.cpp:64-175", "src/handlers/broker_handler.cpp:177-259", "src/handlers/broker_handler.cpp:354-455", "src/handlers/broker_handler.cpp:537-555"]}
{"id": "C69", "title": "The front side of the broker is a guest book", "statement": "There is a small abstract machine, the guest book, whose state is a list of guests (name, hardware group, header frames, description, missed pings still allowed, milliseconds counted) and a frozen flag; its rules mention no workers, requests, queues, clocks or random numbers. For every execution of the broker the book, fed with the same messages, gives exactly the broker's answers to clients (statistics apart), to pings and to progress reports, event by event, and its guests stand, in order, for the registered workers: same name, hardware group, description, header values, remaining liveness and ping timer. The book is deterministic, so these answers and the registry are a function of the messages heard: a submission is accepted exactly if some guest offers everything it requires, an unserved one is answered with its requirements in header order, a frozen broker rejects, a repeated init with the same headers only counts as a sign of life, and a guest disappears exactly when its last allowed ping is missed.", "quantifier": "all runs of any length, all oracles, both queue managers, all configurations", "why_tests_cant": "It gives the complete answer function for arbitrary message sequences; tests check single answers in fixed scenarios.", "anchors": ["src/handlers/broker_handler.cpp:64-175", "src/handlers/broker_handler.cpp:177-259", "src/handlers/broker_handler.cpp:354-455", "src/handlers/broker_handler.cpp:537-555", "src/worker.cpp:94-152"]}
{"id": "C70", "title": "When a sign of life arrives between two ticks does not matter", "statement": "Take any execution and any message of a worker in it that is neither an introduction nor a report (a ping, a progress message or an unknown word). It can be moved later past any messages among which there is no timer tick and no introduction of the same identity: the execution in the new order exists, every message (those moved past, the moved one and all that follow, ticks included) leads to exactly the same messages being sent, and the final states agree on everything including the remaining liveness and ping timer of every worker. Such a message neither causes nor prevents that the next message, unless it is a tick, is fatal. The order in which the reactor serves its sockets within one iteration therefore does not matter for these messages. Both exceptions are needed: past a tick a worker may be forgotten, past its own introduction the answer changes.", "quantifier": "all runs of any length, all oracles, both queue managers, all configurations, all positions", "why_tests_cant": "It compares all pairs of reorderings of arbitrary histories.", "anchors": ["src/handlers/broker_handler.cpp:64-84", "src/handlers/broker_handler.cpp:354-403", "src/reactor/reactor.cpp:25-102"]}
{"id": "C71", "title": "The whole broker with one queue per worker is a deterministic ledger", "statement": "Take a ledger: a list of desks (name, group, headers and description announced, remaining chances, time waited; the task it has; the line of tasks waiting at it), a rota saying whose turn it is, a frozen flag, two counters and the numbers seen at the last tick. A small set of rules says what each message does to it and which messages are sent: a task goes to the first in the rota who can do it, who then goes to the end of the rota; whoever is free takes it at once, others have it wait in line; a good or failed report is passed on and the next in line is handed out; an internal error strikes the task and places it again, unless it is worn out or was only announced; a tick takes chances away, closes the desks that have none left and finds other desks for their tasks. Every execution of the broker with the multi-queue manager, of any length, is an execution of the ledger with exactly the same messages sent in the same order, the desks stand for the registered workers and their queues, and the rota for the order of the queue manager. Conversely every execution of the ledger is one of the broker, whatever the allocator and the clock do. In every reachable state the messages that kill the broker, the messages still sent and the fault are exactly those the ledger calls doomed. The ledger is deterministic.", "quantifier": "all runs of any length of the handler with multi_queue_manager, all oracles, all configurations, all messages", "why_tests_cant": "It is an equivalence of two infinite-state systems over all message sequences, fatal ones included.", "anchors": ["src/handlers/broker_handler.cpp:39-555", "src/queuing/multi_queue_manager.cpp:1-116", "src/worker.cpp:1-152", "src/worker_registry.cpp:1-45"]}
{"id": "C72", "title": "The contract of the worker registry", "statement": "Built by any sequence of additions and removals in which no worker object is added twice, the registry holds exactly the workers added and not removed since, in the order of addition; a removal of an object that is not there changes nothing. find_worker_by_identity gives the oldest worker with that identity and nullptr exactly if there is none. find_worker, given the headers parsed from the frames of a request, gives the oldest worker whose announced group and headers meet every requirement; it gives nullptr exactly if none does and no thread count is reached that is no number, and it throws exactly if a worker before the first suitable one makes it read such a thread count.", "quantifier": "all sequences of operations, all registries, all header frames of workers and requests", "why_tests_cant": "The set of registries and header frames is infinite; find_worker is not used by the broker, so no behaviour of the broker would show a fault in it.", "anchors": ["src/worker_registry.cpp:6-45", "src/worker_registry.h:1-58", "src/worker.cpp:95-152"]}
{"id": "C73", "title": "The whole broker with one queue for all workers is a hall with a common pool", "statement": "Take a hall: a list of desks (name, group, headers and description announced, remaining chances, time waited; the task it has), a pool of waiting tasks with the times they came, the number of readings of the clock, a frozen flag, two counters and the numbers seen at the last tick. A small set of rules, with the order of the addresses of worker objects and the clock as parameters, says what each message does to it and which messages are sent: a task goes to the free desk that can do it whose object has the lowest address; if there is none but some busy desk could do it, it joins the end of the pool with the time shown by the clock; a desk that becomes free or is new has the pool put in the order of time and takes the first task it can do; an internal error strikes the task and places it again, unless it is worn out or was only announced; a tick takes chances away and closes the desks that have none left, whereupon the tasks of the pool nobody can do any more are taken out of it and they and the task of the closed desk are placed again or given up. Every execution of the broker with the single-queue manager, of any length, is an execution of the hall with exactly the same messages sent in the same order; the desks stand for the registered workers, the pool for the queue, and the messages that kill the broker, the messages still sent and the fault are exactly those the hall calls doomed. Conversely, every execution of the hall is one of the broker for some order in which std::sort puts requests of equal times; if the clock never shows the same time twice, the hall is deterministic and that order does not matter.", "quantifier": "all runs of any length of the handler with single_queue_manager, all oracles (addresses, clock, order of ties), all configurations, all messages; the converse for all addresses and clocks and some order of ties", "why_tests_cant": "It relates two infinite-state systems over all message sequences, fatal ones included, all memory layouts and all clocks.", "anchors": ["src/handlers/broker_handler.cpp:39-555", "src/queuing/single_queue_manager.h:1-189", "src/worker.cpp:1-152", "src/worker_registry.cpp:1-45"]}
{"id": "C74", "title": "From the command line to the messages", "statement": "The broker process, from its arguments, configuration document, log and sockets on, with any sequence of waits of the reactor and anything arriving on its sockets, does one of the following and nothing else. It refuses to start, with status 1 and a reason. Or a socket does not open and the exception ends it. Or it has started with the configured settings and handles the messages in an order determined by their arrival alone (in every round the oldest waiting message of the clients, then the oldest of the workers, then the time waited), and what it then does, observably, is exactly the sequence of messages the ledger of C71 (manager 'multi') or the hall of C73 (manager 'single') answers to these, with the configured numbers, each on its own socket or to the notifier; the process ends exactly at the first message that the ledger or hall calls doomed, after the sends of that message. Conversely, whenever the ledger or the hall answers the agenda, or meets a doomed message in it, the process does exactly that, for some order in which std::sort puts requests of equal times; that order does not matter for the ledger or if the clock never shows the same time twice.", "quantifier": "all environments (documents, logs, sockets), all arguments, all oracles, all sequences of waits with any arrivals of any length", "why_tests_cant": "It composes option parsing, configuration, sockets, the reactor and both queue managers over all inputs and all lengths of execution; a test sees one configuration and one arrival order.", "anchors": ["src/main.cpp:7-19", "src/broker_core.cpp:5-146", "src/broker_connect.cpp:5-60", "src/reactor/reactor.cpp:1-222", "src/handlers/broker_handler.cpp:39-555", "src/queuing/multi_queue_manager.cpp", "src/queuing/single_queue_manager.h"]}
{"id": "C75", "title": "The HTTP helper and libcurl", "statement": "For every address, port, set of parameters, name and password, curl_get and curl_post, given a handle, perform exactly one transfer and release the handle exactly once, also when they throw. The terms in force when the transfer is performed are, whatever the arguments: the address (with the query for GET, up to the first NUL), the port, the query as body for POST and no body for GET, the certificate and the host name are checked, redirects are followed, answers from 400 on are errors, the answer is kept, and a login is sent exactly if name or password is not empty. They return the concatenation of the pieces of the answer in order, or throw with a text naming the request, the response code and the error. Without a handle they send nothing and return an empty answer. The name and password libcurl reads are those meant exactly if the name has no colon; with a colon somebody else is logged in (refuted by an example). What the notifier (C35) is said to post is exactly what these calls perform.", "quantifier": "all addresses, ports, parameters, names, passwords, all ways libcurl can cut the answer into pieces, all errors", "why_tests_cant": "The tests never reach a server and replace the notifier by a mock; the options of all transfers for all arguments cannot be enumerated.", "anchors": ["src/helpers/curl.cpp:10-157", "src/helpers/curl.h:10-57"]}
{"id": "C76", "title": "Workers are told apart by their names and nothing else", "statement": "Let every worker be called by another name, different workers by different names, and everything else stay as it is. Then for every execution there is one that receives the same messages with the names exchanged, in which every message sent is the same except that the address of a message to a worker and the hexadecimal name inside the two texts that mention a worker (two different INIT messages, worker dieded) are exchanged too; and the same messages are fatal, with the same fault. So clients and the monitor get exactly the same messages. With one queue per worker this holds in every environment; with one queue for all it holds in the same environment if the clock never shows the same time twice, and for some results of std::sort otherwise.", "quantifier": "all injective renamings, all configurations, all environments, all finite executions, all fatal messages", "why_tests_cant": "ZeroMQ gives workers random identities on every connection; tests use a handful of fixed ones and cannot compare all executions under all renamings.", "anchors": ["src/worker_registry.cpp:31-40", "src/handlers/broker_handler.cpp:64-84", "src/handlers/broker_handler.cpp:206-260", "src/worker.cpp:132-141"]}
{"id": "C77", "title": "From the command line to the requests at the frontend", "statement": "For every surrounding of the process, all command line arguments, all that arrives on the sockets, all interleavings of the main thread and the notifier's thread and everything libcurl does: what the process hands to the notifier's thread are exactly the notifications among the answers of the ledger or the hall (C71, C73), up to the message that ends the process, if any; nothing if it refuses to start. The thread handles some of these, in order and none twice; all but those handed over before it connected, or still in the pipe, as long as there is room. For each one it handles it performs one transfer, a POST whose address, port, body and login are those of the notification and the configuration file, with certificate and host name checked, until it succeeds, at most four times, with one complaint in the log and a wait of 1, 2, 4 and 8 seconds after each failure; every handle is released. A handle that cannot be had counts as success.", "quantifier": "all environments, arguments, documents, incoming messages, clocks, results of std::sort, interleavings of the threads, capacities of the pipe, outcomes of libcurl", "why_tests_cant": "The tests replace the notifier, the sockets and libcurl by mocks and never run the two threads together; here the chain from the configuration file to the bytes of each transfer is covered for all inputs and schedules.", "anchors": ["src/handlers/status_notifier_handler.cpp:18-66", "src/helpers/curl.cpp:100-157", "src/broker_connect.cpp:38-48", "src/broker_core.cpp:5-31", "src/reactor/reactor.cpp:63-170"]}
{"id": "C78", "title": "The log of the whole process, and that it can be reproduced", "statement": "For every surrounding of the process, all command line arguments and all that arrives on the sockets: the process logs its first lines and then, for each message it handles, exactly the record of the journal (C64); for a message that ends it, the lines written before the end are those of last_words. The log and everything else the process does depend on the messages received alone if every worker has its own queue: neither the addresses of objects nor the clock nor std::sort show, not even in the record of a fatal message. With one queue for all workers they show only in the order of the addresses, the order of the clock readings and, if the clock repeats a value, the results of std::sort; the order of the addresses does show.", "quantifier": "all environments, arguments, documents, incoming messages, pairs of address assignments, clocks and results of std::sort", "why_tests_cant": "Two runs on the same machine tend to agree by accident, and the tests log to a null logger; that no line depends on an address, an iteration order or the clock is a statement about pairs of executions in different environments.", "anchors": ["src/handlers/broker_handler.cpp:64-555", "src/broker_core.cpp:5-153", "src/broker_connect.cpp:17-48", "src/reactor/reactor.cpp:63-144"]}
{"id": "C79", "title": "Jobs and workers are what their headers say, not how they are written", "statement": "Take any history and write the header frames of any of the jobs in another way that requires the same (in another order, with frames repeated, with other metadata), and those of any of the workers in another order that keeps headers of the same name in order. The broker accepts and refuses the same jobs, hands the same jobs to the same workers at the same moments, sends the same to the monitor and the frontend for all that follows, and dies of the same messages. The only difference is the list of headers in the text of a refusal. This holds for both queue managers, provided that the thread counts in the headers of the jobs are numbers.", "quantifier": "all histories, pairs of ways to write the headers, environments and configurations", "why_tests_cant": "It compares pairs of whole executions whose headers differ; each test sends its headers in one order, and an effect of the order may show only when a job is reassigned much later.", "anchors": ["src/handlers/broker_handler.cpp: process_client_eval, process_worker_init", "src/worker.cpp:95-156", "src/worker.h:75-150", "src/queuing/single_queue_manager.h", "src/queuing/multi_queue_manager.cpp"]}
