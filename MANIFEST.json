{
 "claims": [
  {
   "property": "C01",
   "status": "proved",
   "theorems": [
    "C01_conservation"
   ],
   "note": ""
  },
  {
   "property": "C02",
   "status": "proved",
   "theorems": [
    "C02_reports_bounded"
   ],
   "note": ""
  },
  {
   "property": "C03",
   "status": "proved",
   "theorems": [
    "C03_held_once"
   ],
   "note": ""
  },
  {
   "property": "C24",
   "status": "proved",
   "theorems": [
    "C24_header_frame",
    "C24_eval_headers",
    "C24_init_headers"
   ],
   "note": ""
  },
  {
   "property": "C28",
   "status": "proved",
   "theorems": [
    "C28_hex_injective",
    "C28_description_injective",
    "C28_hex_text"
   ],
   "note": ""
  },
  {
   "property": "C29",
   "status": "proved",
   "theorems": [
    "C29_hwgroup"
   ],
   "note": ""
  },
  {
   "property": "C30",
   "status": "proved",
   "theorems": [
    "C30_threads",
    "C30_threads_throws",
    "C30_registration_throws"
   ],
   "note": ""
  },
  {
   "property": "C39",
   "status": "proved",
   "theorems": [
    "C39_round_trip",
    "C39_stoll"
   ],
   "note": ""
  },
  {
   "property": "C04",
   "status": "proved",
   "theorems": [
    "C04_C08_dispatch"
   ],
   "note": ""
  },
  {
   "property": "C08",
   "status": "proved",
   "theorems": [
    "C04_C08_dispatch"
   ],
   "note": ""
  },
  {
   "property": "C09",
   "status": "proved",
   "theorems": [
    "C09_redispatch_bounded"
   ],
   "note": ""
  },
  {
   "property": "C10",
   "status": "proved",
   "theorems": [
    "C10_one_job_at_a_time",
    "C10_unique_identity"
   ],
   "note": "counted per identity, since two workers can share one (C26)"
  },
  {
   "property": "C34",
   "status": "proved",
   "theorems": [
    "C34_same_workers",
    "C34_removed_for_good"
   ],
   "note": ""
  },
  {
   "property": "C18",
   "status": "proved",
   "theorems": [
    "C18_tick_accounts",
    "C34_removed_for_good"
   ],
   "note": ""
  },
  {
   "property": "C05",
   "status": "proved",
   "theorems": [
    "C05_eval_protocol",
    "C05_eval_truncated"
   ],
   "note": ""
  },
  {
   "property": "C06",
   "status": "proved",
   "theorems": [
    "C06_accept_iff_servable",
    "C06_frozen_rejects"
   ],
   "note": ""
  },
  {
   "property": "C07",
   "status": "proved",
   "theorems": [
    "C07_frozen_iff",
    "C07_frozen_history"
   ],
   "note": ""
  },
  {
   "property": "C20",
   "status": "proved",
   "theorems": [
    "C20_ping_reply"
   ],
   "note": ""
  },
  {
   "property": "C21",
   "status": "proved",
   "theorems": [
    "C21_progress_forwarded"
   ],
   "note": ""
  },
  {
   "property": "C22",
   "status": "proved",
   "theorems": [
    "C22_ignored_harmless"
   ],
   "note": ""
  },
  {
   "property": "C25",
   "status": "proved",
   "theorems": [
    "C25_reinit_same"
   ],
   "note": ""
  },
  {
   "property": "C26",
   "status": "proved",
   "theorems": [
    "C26_reinit_changed",
    "C26_shadowed"
   ],
   "note": ""
  },
  {
   "property": "C27",
   "status": "proved",
   "theorems": [
    "C27_stats_reply"
   ],
   "note": ""
  },
  {
   "property": "C11",
   "status": "proved",
   "theorems": [
    "C11_oldest_first",
    "C11_oldest_first_run",
    "C11_sort_adequate"
   ],
   "note": ""
  },
  {
   "property": "C12",
   "status": "proved",
   "theorems": [
    "C12_work_conserving",
    "C12_unrestricted_refuted"
   ],
   "note": "the claim restricted to runs where the idle worker did not report INTERNAL_ERROR is proved; the unrestricted claim is refuted by a witness run"
  },
  {
   "property": "C13",
   "status": "proved",
   "theorems": [
    "C13_front_first",
    "C13_worker_fifo",
    "C13_no_idle_backlog",
    "C13_unrestricted_refuted"
   ],
   "note": "the second part is proved for workers that did not report INTERNAL_ERROR and refuted without that restriction"
  },
  {
   "property": "C14",
   "status": "proved",
   "theorems": [
    "C14_one_receiver",
    "C14_least_recently_given",
    "C14_round_robin"
   ],
   "note": ""
  },
  {
   "property": "C33",
   "status": "proved",
   "theorems": [
    "C33_runs_use_interface",
    "C33_enqueue",
    "C33_assign",
    "C33_finished",
    "C33_cancelled",
    "C33_current",
    "C33_count",
    "C33_add",
    "C33_terminated"
   ],
   "note": ""
  },
  {
   "property": "C15",
   "status": "proved",
   "theorems": [
    "C15_communicating_kept"
   ],
   "note": "Proved with the sharper bound max_liveness * (ping_interval + 1); messages of any peer, including the worker itself, may come in between."
  },
  {
   "property": "C16",
   "status": "proved",
   "theorems": [
    "C16_silent_removed"
   ],
   "note": "Proved with the sharper bound (max_liveness - 1) * (ping_interval + D) + ping_interval."
  },
  {
   "property": "C17",
   "status": "proved",
   "theorems": [
    "C17_fresh_silence",
    "C17_zero_liveness",
    "C17_detection_refuted"
   ],
   "note": "Positive form (still registered during fewer than 2^64 ticks) and refutation of the unrestricted detection bound, for both managers."
  },
  {
   "property": "C19",
   "status": "proved",
   "theorems": [
    "C19_survivors_refuted",
    "C19_extra_failure_refuted"
   ],
   "note": "Counterexample runs for both managers: the tick sends the job to a worker it removes, and the job is reported as failed although an idle capable worker survives."
  },
  {
   "property": "C23",
   "status": "proved",
   "theorems": [
    "C23_fatal",
    "C23_benign"
   ],
   "note": "Exact characterisation (iff) of the fatal messages in every reachable state, with fault and messages sent before; faults: exception, dereference of null or end(), signed overflow."
  },
  {
   "property": "C31",
   "status": "proved",
   "theorems": [
    "C31_delivery",
    "C31_addressee",
    "C31_received",
    "C31_received_waits",
    "C31_frames",
    "C31_any_messages",
    "C31_any_messages_total",
    "C31_run"
   ],
   "note": "ROUTER semantics of libzmq modelled in Wire.v (no MANDATORY, sends never fail); the effect of messages without frames is characterised exactly."
  },
  {
   "property": "C32",
   "status": "proved",
   "theorems": [
    "C32_empty_iff",
    "C32_misdelivered"
   ],
   "note": "Exact (iff) list of the cases, and the misdelivery proved for every run."
  },
  {
   "property": "C43",
   "status": "proved",
   "theorems": [
    "C43_says"
   ],
   "note": ""
  },
  {
   "property": "C35",
   "status": "proved",
   "theorems": [
    "C35_posted",
    "C35_any",
    "C35_odd"
   ],
   "note": "libcurl is an arbitrary sequence of outcomes; texts are cut at the first NUL byte by the const char interface; without a libcurl handle nothing is sent and nothing retried."
  },
  {
   "property": "C36",
   "status": "proved",
   "theorems": [
    "C36_round_trip",
    "C36_failed",
    "C36_done",
    "C36_refuted_injection",
    "C36_refuted_replaced"
   ],
   "note": "Exact (iff) condition on the failure text; the two refutations are full broker runs."
  },
  {
   "property": "C38",
   "status": "proved",
   "theorems": [
    "C38_tables",
    "C38_order",
    "C38_sound",
    "C38_socket",
    "C38_no_socket",
    "C38_process",
    "C38_round",
    "C38_fair",
    "C38_broker",
    "C38_broker_setup"
   ],
   "note": "C38_process is for handlers whose messages need no further synchronous handler, as in the broker; C38_sound holds without that. C38_broker assumes that nothing arrives from asynchronous handlers: the broker's only one sends nothing. Receiving from a socket is taken to succeed."
  },
  {
   "property": "C40",
   "status": "proved",
   "theorems": [
    "C40_depends",
    "C40_kept",
    "C40_removed",
    "C40_uncounted"
   ],
   "note": "C40_uncounted: in every round of the silent time a client message has arrived, so that poll may return at once."
  },
  {
   "property": "C37",
   "status": "proved",
   "theorems": [
    "C37_mailbox",
    "C37_own_steps",
    "C37_at_most_once",
    "C37_exactly_once",
    "C37_room",
    "C37_terminates",
    "C37_hangs",
    "C37_notifications"
   ],
   "note": "Messages without data frames and the key TERMINATE are excluded (examples C37_refuted_empty, C37_refuted_key); the broker sends neither to its notifier. ROUTER, DEALER and high water marks are modelled after libzmq."
  },
  {
   "property": "C41",
   "status": "proved",
   "theorems": [
    "C41_texts",
    "C41_numbers",
    "C41_fails",
    "C41_manager",
    "C41_interval"
   ],
   "note": "The YAML parser, scalar conversions and path functions are parameters. The port of the notifier has no default in the code: without the entry it is indeterminate. Example C41_refuted_interval: an interval of 2^63 or more becomes negative and workers expire at once."
  },
  {
   "property": "C42",
   "status": "proved",
   "theorems": [
    "C42_names",
    "C42_compare",
    "C42_header"
   ],
   "note": "More verbose is stated through the messages a logger of the level writes (spdlog should_log)."
  },
  {
   "property": "C44",
   "status": "proved",
   "theorems": [
    "C44_ok",
    "C44_failed",
    "C44_internal_announced",
    "C44_internal_last",
    "C44_internal_again"
   ],
   "note": "Findings: the monitor is not told about done FAILED nor about an INTERNAL_ERROR of an announced job, and after an INTERNAL_ERROR of an announced or requeued job the worker is not offered other work."
  },
  {
   "property": "C45",
   "status": "proved",
   "theorems": [
    "C45_eval"
   ],
   "note": "Example C45_refuted_multi: with per-worker queues a job may wait for a busy worker although a capable worker is idle. Evals without the empty frame and frozen brokers are C05 and C07; non-numeric thread counts are C23."
  },
  {
   "property": "C46",
   "status": "proved",
   "theorems": [
    "C46_new",
    "C46_again"
   ],
   "note": "Findings: the old worker of an identity stays registered beside the new one; with the single queue an announced job is sent to the new worker as a message without frames. Same headers again: C25."
  },
  {
   "property": "C47",
   "status": "proved",
   "theorems": [
    "C47_tick",
    "C47_quiet"
   ],
   "note": "Findings: the number of reassignments in the text wraps to 2^64-1 when max_request_failures is 0; a job nobody can run is reported to the monitor before and to the frontend after the other jobs of its worker. That the tick does not fault: C23."
  },
  {
   "property": "C48",
   "status": "proved",
   "theorems": [
    "C48_serves",
    "C48_sockets",
    "C48_refuses",
    "C48_numbers",
    "C48_process"
   ],
   "note": "Findings: --help exits with 1; a socket that does not open before the notifier's thread has connected leaves the process hanging in the join instead of exiting (C37_hangs). The texts of library exceptions and the outcome of opening files and sockets are parameters."
  },
  {
   "property": "C49",
   "status": "proved",
   "theorems": [
    "C49_own_queue",
    "C49_single_queue",
    "C49_single_queue_clock"
   ],
   "note": "Finding (C49_clock_back_refuted): arrival times come from system_clock, so when the clock is set back later jobs overtake earlier ones, without a bound. INTERNAL_ERROR reports do not count, since a worker that sends one may stay idle beside waiting jobs (C12, C13)."
  },
  {
   "property": "C50",
   "status": "proved",
   "theorems": [
    "C50_leaves",
    "C50_kept",
    "C50_hidden"
   ],
   "note": "The hidden-worker theorem is a defect of the modelled code: an accepted job can stay unreported forever; if the first worker is idle, the honest report of that job is a null dereference (C50_example_fatal)."
  },
  {
   "property": "C51",
   "status": "proved",
   "theorems": [
    "C51_blind",
    "C51_blind_crash"
   ],
   "note": "Injectivity of the renaming of jobs is needed (C51_same_names_refuted): the broker compares job identifiers. Worker identities and texts of failure reports are kept equal; they are not covered."
  },
  {
   "property": "C52",
   "status": "proved",
   "theorems": [
    "C52_timers",
    "C52_newcomers",
    "C52_never_forgotten"
   ],
   "note": "A defect of the modelled code: nothing erases from worker_timers_. The claim that what is kept is bounded by the registered workers is refuted (C52_released_refuted). The other containers refer to registered workers only (C34). It also means that no address of a worker object is reused, as the model assumes."
  },
  {
   "property": "C53",
   "status": "proved",
   "theorems": [
    "C53_multi",
    "C53_multi_run",
    "C53_multi_crash",
    "C53_single_run",
    "C53_single_crash"
   ],
   "note": "That the single queue's behaviour is independent of the addresses, of the clock, or of std::sort when times coincide, is refuted by C53_addresses_refuted, C53_clock_refuted and C53_ties_refuted."
  },
  {
   "property": "C54",
   "status": "proved",
   "theorems": [
    "C54_survives",
    "C54_matching",
    "C54_one_job",
    "C54_agreement",
    "C54_no_phantom",
    "C54_busy_known",
    "C54_one_worker"
   ],
   "note": "The workers are an environment model (SpecSystem.v), not code of the repository. Messages arrive as they were sent; C57 says when the socket in between guarantees this (not always with the single queue). Without the supposition about giving workers up the first claim is refuted by C54_survives_refuted (null dereference, both queue managers)."
  },
  {
   "property": "C55",
   "status": "proved",
   "theorems": [
    "C55_received",
    "C55_evaluated",
    "C55_said",
    "C55_reported"
   ],
   "note": "The workers are the environment model of SpecSystem.v. Messages arrive as they were sent; C57 says when the socket in between guarantees this (not always with the single queue). No restriction on when workers are given up."
  },
  {
   "property": "C56",
   "status": "proved",
   "theorems": [
    "C56_drain",
    "C56_drain_all"
   ],
   "note": "The unrestricted form of the second statement is refuted by C56_drain_all_refuted (round robin manager, job queued behind an internal error)."
  },
  {
   "property": "C57",
   "status": "proved",
   "theorems": [
    "C57_ideal",
    "C57_real",
    "C57_survives",
    "C57_no_phantom"
   ],
   "note": "All workers are taken to be connected and able to take messages. The condition on announced jobs is needed with the single queue: C57_no_phantom_refuted, C57_survives_refuted."
  },
  {
   "property": "C58",
   "status": "proved",
   "theorems": [
    "C58_bounded",
    "C58_goes_on",
    "C58_comes_to_rest",
    "C58_rest"
   ],
   "note": "Workers and delivery as in C54 (ideal delivery; C57 says when the socket behaves like it). Workers that start later and timer events are not part of the continuations."
  },
  {
   "property": "C59",
   "status": "proved",
   "theorems": [
    "C59_unchanged",
    "C59_in_order",
    "C59_never_blocks",
    "C59_all_read",
    "C59_silent"
   ],
   "note": "That every answer arrives as given is false: C59_kept_back_refuted and C59_swallowed_refuted (Examples); C59_in_order is what holds for all answers. A thread waiting for room in its pipe is not a separate step."
  },
  {
   "property": "C60",
   "status": "proved",
   "theorems": [
    "C60_all_lost",
    "C60_will_be_lost"
   ],
   "note": "Without the condition that every worker has been heard of the claim is false: C60_unheard_refuted (Example) and C17."
  },
  {
   "property": "C61",
   "status": "proved",
   "theorems": [
    "C61_only_after_failure",
    "C61_once"
   ],
   "note": "C61_always_once_refuted (Example) shows that a job may be sent twice without any INTERNAL_ERROR, namely when its worker is lost."
  },
  {
   "property": "C62",
   "status": "proved",
   "theorems": [
    "C62_each",
    "C62_tick",
    "C62_linear"
   ],
   "note": "C62_linear_refuted (Example) shows that the third bound is false for the multi queue manager: two workers that are lost in turn pass all waiting jobs back and forth, with one ABORTED message per job each time."
  },
  {
   "property": "C63",
   "status": "proved",
   "theorems": [
    "C63_survives",
    "C63_matching",
    "C63_one_job",
    "C63_agreement",
    "C63_origin",
    "C63_forgotten",
    "C63_reported",
    "C63_adopts",
    "C63_bounded",
    "C63_comes_to_rest",
    "C63_rest"
   ],
   "note": "C63_all_reported_refuted (Example): jobs that waited, and a job whose worker reports before it has introduced itself to the new broker, are never reported. C63_survives_refuted (Example): if a request to introduce itself is on the way when the broker is started again, a worker that follows the protocol can bring the new broker down. With the single queue the message without frames sent to a worker that brings its job along does to the ROUTER socket what C57 says."
  },
  {
   "property": "C64",
   "status": "proved",
   "theorems": [
    "C64_unchanged",
    "C64_journal",
    "C64_formats",
    "C64_sent",
    "C64_refused",
    "C64_done",
    "C64_free",
    "C64_expired",
    "C64_silence",
    "C64_volume",
    "C64_one_line"
   ],
   "note": "C64_one_line_refuted (Example): a job id with a newline in it forges a line of the log."
  },
  {
   "property": "C65",
   "status": "proved",
   "theorems": [
    "C65_course",
    "C65_never",
    "C65_terminated"
   ],
   "note": "C65_exception_refuted (Example): that main catches the exception of a handler and returns 1 is false. C65_example_reordered (Example): with async_handler_socket_ declared before handlers_ the thread is joined."
  },
  {
   "property": "C66",
   "status": "proved",
   "theorems": [
    "C66_ledger"
   ],
   "note": "C66_refuted (Example): a job ends with FAILED and the monitor hears nothing. What the broker only forwards (progress) does not count as told by the broker."
  },
  {
   "property": "C67",
   "status": "proved",
   "theorems": [
    "C67_fair_share",
    "C67_idle_beside_backlog"
   ],
   "note": "A worker gives a request back by a well-formed report (OK, FAILED, INTERNAL_ERROR) about its current job; gets counts what it has at the end, plus what it gave back, minus what it had. The single queue manager leaves no such backlog as long as no worker reports INTERNAL_ERROR (C12)."
  },
  {
   "property": "C68",
   "status": "proved",
   "theorems": [
    "C68_front",
    "C68_crash_together_refuted"
   ],
   "note": "Both runs must survive all messages; the second theorem shows why: a report can be fatal to one queue manager only. Frontend notifications, handovers and monitor lines about job ends do differ and are not compared."
  },
  {
   "property": "C69",
   "status": "proved",
   "theorems": [
    "C69_book",
    "C69_determined"
   ],
   "note": "A refinement theorem: forward simulation from the broker model to the relation serve of SpecBook.v, plus determinism of that relation. The book has no rules for messages that kill the broker (C23 says which)."
  },
  {
   "property": "C70",
   "status": "proved",
   "theorems": [
    "C70_swap",
    "C70_crash",
    "C70_tick_refuted",
    "C70_introduction_refuted"
   ],
   "note": "The last two theorems show that the two kinds of messages excluded really have to be."
  },
  {
   "property": "C71",
   "status": "proved",
   "theorems": [
    "C71_ledger",
    "C71_complete",
    "C71_fatal",
    "C71_determined"
   ],
   "note": "Bisimulation between the handler model with the multi-queue manager and an independent specification (SpecLedger.v). The single-queue manager is the subject of C73."
  },
  {
   "property": "C72",
   "status": "proved",
   "theorems": [
    "C72_contents",
    "C72_order",
    "C72_by_name",
    "C72_by_need"
   ],
   "note": "Covers worker_registry::find_worker, which the broker itself never calls."
  },
  {
   "property": "C73",
   "status": "proved",
   "theorems": [
    "C73_hall",
    "C73_allows",
    "C73_complete",
    "C73_determined"
   ],
   "note": "Simulation of the handler model with the single-queue manager by an independent specification (SpecPool.v). How std::sort orders tasks with equal times is left open in the specification; the converse (C73_allows) gives a run for some order of ties, and for clocks without ties the hall is deterministic (C73_complete, C73_determined)."
  },
  {
   "property": "C74",
   "status": "proved",
   "theorems": [
    "C74_process",
    "C74_complete",
    "C74_dies",
    "C74_allows",
    "C74_may_die"
   ],
   "note": "Composes C48, C71 and C73. The notifier's thread sends nothing back to the reactor (C37), hence the hypothesis on w_async. The converse for the single-queue manager holds for some order of ties (C74_allows, C74_may_die), and for the given one if the clock has no ties (C74_complete, C74_dies)."
  },
  {
   "property": "C75",
   "status": "proved",
   "theorems": [
    "C75_get",
    "C75_post",
    "C75_one",
    "C75_silent",
    "C75_login",
    "C75_login_one",
    "C75_notifier",
    "C75_login_refuted"
   ],
   "note": "curl_get is never called by the broker. The meaning of libcurl's options (SpecCurl.v: adopt, transfers, login_of) is taken from its documentation. The claim that every login is read back is false and refuted (C75_login_refuted); the exact condition is C75_login."
  },
  {
   "property": "C76",
   "status": "proved",
   "theorems": [
    "C76_multi",
    "C76_single",
    "C76_single_ties",
    "C76_others"
   ],
   "note": "Distinct names are needed: C76_collision shows two workers under one name. With equal times the order of std::sort is chosen anew."
  },
  {
   "property": "C77",
   "status": "proved",
   "theorems": [
    "C77_handed",
    "C77_requests",
    "C77_all",
    "C77_course"
   ],
   "note": "Composes C74 (process), C37 (threads), C35 (notifier) and C75 (libcurl); the notifier is modelled once more in Errands.v with every call of libcurl. A notifier port that is not configured is indeterminate in the source; the theorem then holds for every value of it."
  },
  {
   "property": "C78",
   "status": "proved",
   "theorems": [
    "C78_log",
    "C78_last_words",
    "C78_multi",
    "C78_single",
    "C78_process_multi",
    "C78_process",
    "C78_texts",
    "C78_levels"
   ],
   "note": "Composes C64 (journal), C74 (process), C23 (fatal messages) and carries C53 (environments) over to the log. Complaints of the notifier's thread (C77) and the lines after the loop has ended are not in this log. C78_addresses_refuted: with one queue the order of the addresses shows in the log."
  },
  {
   "property": "C79",
   "status": "proved",
   "theorems": [
    "C79_multi",
    "C79_single",
    "C79_single_ties",
    "C79_rearranged",
    "C79_metadata",
    "C79_workers",
    "C79_elsewhere"
   ],
   "note": "Through the ledger (C71) and the hall (C73). The condition on thread counts is needed: C79_counts_refuted, where the order of two headers decides whether the broker dies. So is the order of a worker's headers of the same name: C79_workers_refuted. With equal times the order of std::sort is chosen anew."
  }
 ]
}