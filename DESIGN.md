# Formal model of ReCodEx/broker in Rocq (Coq 8.16.1)

## 1. Shape of the development

All files are in `rocq/theories` (logical name `Verif`), built by `rocq/_CoqProject`.

* **Model** (definitions only, no proofs; each definition cites file and lines of `/repo`): `Base`,
  `Bytes`, `Containers`, `Worker`, `Multi`, `Single`, `Queue`, `Handler`, `Wire`, `Notifier`,
  `Reactor`, `Async`, `Replies`, `Config`, `Logger`, `Startup`.
* **Specification** (`Spec*.v`): the vocabulary in which properties are stated (capability of a
  worker, reading a trace, where a request is, what a message may say, ...). It is separate from the
  code of the handlers, queue managers and parsers.
* **Property files** (`Prop*.v`): only the property theorems (each closed by `exact lemma`), an
  `Example` beside each showing that its hypotheses are met by a concrete non-trivial case, and
  `Print Assumptions` under each.
* `Demo`, `Detect`: concrete runs used by examples. Everything else: lemmas.

The main line of the proofs about the broker: `QueueInv` (invariant of the two queue managers and what
each of their operations does) -> `Atoms` (small labelled actions on the state and the requests in
hand) -> `HandlerSim` (every processed message is a sequence of atoms of a known shape) -> the
files that draw conclusions from this for all runs (`Conserve`, `Provenance`, `Budget`, `OneJob`,
`Members`, `Messages`, `Stats`, `QueueContract`, `QueueOrder`, `OwnQueue`, `WorkConserving`, `Pings`,
`Tick`, `Fatal`, `Out`, `Outcome`, `Joining`, `TickOutcome`, `Waiting`,
`Stuck`, `Keep`, `Lost`). `Blind` relates runs whose inputs differ in what the broker does not look at; `Oracle` and
`OracleRun` relate runs in different environments; these work on the definitions of the handlers directly. `WireRun`, `ReactorRun` and
`AsyncRun` connect the runs of the handler with sockets, reactor and notifier thread. `SpecSystem` models the
workers at the other end of the sockets (environment, not code of the repository) and `System` puts them together with
the broker; `SystemSim` is an executable version used by examples.
`SpecDrain` adds what C55 and C56 say about that system (jobs go back to clients; work can be finished
without clients and timer), `Drain` proves it, and `DrainSim` serves the examples. `SpecFinish` and `Finish` show that
every schedule finishes the work (C58): a weight of everything still to be done goes down with each step; `FinishSim` is one such schedule. `SpecWired`, `Wired` and `WiredSim` do
the same with the ROUTER socket (`Wire`) in between.
`SpecLives`, `Lives` and `LivesSim` do the same with a broker that is stopped and started again (C63); `System`, `Drain` and `Finish` therefore
prove what they prove from an invariant (`sys_ok`) that also holds after a restart.

## 2. Modelling decisions

* **Strings** are Coq `string`s (sequences of 8-bit `ascii`), compared as unsigned bytes like
  `std::string`.
* **Faults.** Every C++ exception and every undefined behaviour is a distinct value of `fault`
  (`OutOfRange`, `InvalidArgument`, `NullDeref`, `DerefEnd`, `IntOverflow`). An exception in a
  handler leaves `reactor::start_loop`: a fault is the death of the broker (C65 says how).
  Outputs sent before the fault stay visible.
* **Handlers** are functions of a state/output/fault monad, in the statement order of the C++.
* **Runs.** A run is a list of events (state, received message, sent messages, state). Theorems speak
  about all runs from the initial state, for every configuration, both queue managers and every oracle.
* **Pointers.** `shared_ptr<worker>`/`shared_ptr<request>` are records carrying the allocation
  number (pointer identity) and the immutable fields; the two mutable fields (`liveness`,
  `failure_count`) live in tables in the broker state keyed by allocation number.
  `std::map<worker_ptr, _>` iterates in address order; the address of the k-th allocated worker
  is an arbitrary oracle value, so theorems hold for every address layout.
  No address is used twice: `worker_timers_` never drops a worker (C52).
* **Oracles** (universally quantified): worker addresses, successive `system_clock::now()`
  readings (not assumed monotone), tie-breaking of each unstable `std::sort` call; for the other parts
  the outcomes of libcurl, of yaml-cpp conversions, of option parsing, of binding and connecting
  sockets, the arrival of messages and the readings of the steady clock around `poll`.
* **Integers.** `size_t liveness` wraps modulo 2^64; `failure_count - 1` wraps when printed;
  `chrono::milliseconds` additions outside 64-bit range are `IntOverflow`. Counters that only
  grow (`failure_count`, statistics) are unbounded `N` (2^64 increments are out of reach).
* **False general claims** are refuted by a concrete run (`_refuted`) next to the strongest restricted
  statement that holds.

## 3. Which code is modelled

| source | model | left out |
|---|---|---|
| `worker.h/.cpp` | `Worker`, `Bytes` | - |
| `worker_registry.*` | `Worker` | - |
| `queuing/multi_queue_manager.*` | `Multi` | - |
| `queuing/single_queue_manager.h` | `Single` | other comparators and selectors than the default ones (the broker instantiates no others) |
| `queuing/queue_manager_interface.h` | `Queue` | - |
| `handlers/broker_handler.*` | `Handler`; with the calls of the logger `LogHandler`, within the process `Chronicle` | - |
| `handlers/status_notifier_handler.*` | `Notifier`, `Errands` | - |
| `notifier/*` | `Handler` | `empty_status_notifier` (used by tests only) |
| `helpers/curl.*` | `Curl`, `Notifier` | libcurl itself: TLS, HTTP and what its options bring about (taken from its documentation in `SpecCurl`) |
| `helpers/string_to_hex.*` | `Bytes` | - |
| `helpers/logger.*` | `Logger` | the sinks of spdlog |
| `reactor/command_holder.*` | `Handler` | - |
| `reactor/message_container.*` | `Base` | - |
| `reactor/router_socket_wrapper.*` | `Wire` | ZeroMQ below the ROUTER framing rule |
| `reactor/socket_wrapper_base.*` | `Startup`, `Wire` | - |
| `reactor/reactor.*` | `Reactor`, `Async`, `Replies`, `Ending` | - |
| `broker_connect.*` | `Handler`, `Reactor`, `Config`, `Startup`, `Ending` | - |
| `broker_core.*` | `Startup`, `Config`, `Logger`, `Ending` | creation of the log file (its success is an oracle value) |
| `config/*` | `Config` | YAML text parsing: documents are trees, scalar conversions arbitrary functions |
| `main.cpp` | `Startup`, `Ending` | - |

Not modelled anywhere: memory exhaustion, signals, real
thread scheduling below atomic multipart sends.

## 4. Testing the theorems

Theorems are tested against wrong programs: one definition of the model is edited in a scratch copy,
and the files are recompiled to see which theorems fail. `seeded/LOG.jsonl` has one line per attempt.

## 5. Trusted base

* Coq's kernel (8.16.1), including its virtual machine (`vm_compute`, used for concrete examples). No
  plugins, no switched off checks, no axioms.
* That the model says what the C++ says: the reading recorded in the comments of the model files.
* The library semantics written into the model: `std::multimap` insertion order, `std::map` order,
  `std::stoul`/`std::stoll`, `std::sort` returning some sorted permutation, `std::list`/`queue`/`deque`,
  ZeroMQ ROUTER framing and high water marks, yaml-cpp node access, spdlog's level comparison, libcurl
  reading options up to the first NUL.
* The `Spec*.v` files, which are meant to be read: they say what the theorems mean.

## 6. Properties and where they are proved

Statements are in `properties.jsonl`; the exact claims in `MANIFEST.json`.

| id | property | file | theorems |
|---|---|---|---|
| C01 | No accepted job is lost or invented | `PropJobs.v` | `C01_conservation` |
| C02 | A job is reported to the frontend at most once per acceptance | `PropJobs.v` | `C02_reports_bounded` |
| C03 | A request is in exactly one place | `PropJobs.v` | `C03_held_once` |
| C04 | Jobs only go to capable workers | `PropDispatch.v` | `C04_C08_dispatch` |
| C05 | Client reply protocol of eval | `PropMessages.v` | `C05_eval_protocol`, `C05_eval_truncated` |
| C06 | Accept iff some registered worker is capable | `PropMessages.v` | `C06_accept_iff_servable`, `C06_frozen_rejects` |
| C07 | Freeze is exactly the last freeze/unfreeze command | `PropMessages.v` | `C07_frozen_iff`, `C07_frozen_history` |
| C08 | Job payload is forwarded verbatim | `PropDispatch.v` | `C04_C08_dispatch` |
| C09 | Bounded re-dispatch | `PropDispatch.v` | `C09_redispatch_bounded` |
| C10 | A worker is given one job at a time | `PropDispatch.v` | `C10_one_job_at_a_time`, `C10_unique_identity` |
| C11 | Single queue serves the oldest capable job first | `PropQueue.v` | `C11_oldest_first`, `C11_oldest_first_run`, `C11_sort_adequate` |
| C12 | Single queue is work conserving unless a worker reports INTERNAL_ERROR | `PropQueue.v` | `C12_work_conserving`, `C12_unrestricted_refuted` |
| C13 | Multi queue: per-worker FIFO and no idle worker with a backlog unless INTERNAL_ERROR | `PropQueue.v` | `C13_front_first`, `C13_worker_fifo`, `C13_no_idle_backlog`, `C13_unrestricted_refuted` |
| C14 | Multi queue distributes round-robin | `PropQueue.v` | `C14_one_receiver`, `C14_least_recently_given`, `C14_round_robin` |
| C15 | A communicating worker is never expired | `PropPings.v` | `C15_communicating_kept` |
| C16 | A silent worker is detected in bounded time | `PropPings.v` | `C16_silent_removed` |
| C17 | Silence directly after registration is never detected | `PropPings.v` | `C17_fresh_silence`, `C17_zero_liveness`, `C17_detection_refuted` |
| C18 | An expired worker's jobs are each reassigned or reported | `PropDispatch.v`, `PropTick.v` | `C18_tick_accounts`, `C34_removed_for_good` |
| C19 | Reassignment can target a worker expiring in the same tick | `PropPings.v` | `C19_survivors_refuted`, `C19_extra_failure_refuted` |
| C20 | Ping replies | `PropMessages.v` | `C20_ping_reply` |
| C21 | Progress messages are forwarded verbatim to the monitor | `PropMessages.v` | `C21_progress_forwarded` |
| C22 | Ignored messages change nothing | `PropMessages.v` | `C22_ignored_harmless` |
| C23 | Exact conditions under which a message kills the broker | `PropFatal.v` | `C23_fatal`, `C23_benign` |
| C24 | Header parsing | `PropText.v` | `C24_header_frame`, `C24_eval_headers`, `C24_init_headers` |
| C25 | Repeated registration with unchanged headers is a no-op | `PropMessages.v` | `C25_reinit_same` |
| C26 | Registration with changed headers leaves two workers with one identity | `PropMessages.v` | `C26_reinit_changed`, `C26_shadowed` |
| C27 | Runtime statistics are correct | `PropMessages.v` | `C27_stats_reply` |
| C28 | Hexadecimal worker names are unambiguous | `PropHex.v`, `PropText.v` | `C28_hex_injective`, `C28_description_injective`, `C28_hex_text` |
| C29 | hwgroup matching is membership in the alternatives | `PropText.v` | `C29_hwgroup` |
| C30 | threads matching is numeric comparison modulo strtoul | `PropText.v` | `C30_threads`, `C30_threads_throws`, `C30_registration_throws` |
| C31 | Messages are delivered to their addressee with their frames | `PropWire.v` | `C31_delivery`, `C31_addressee`, `C31_received`, `C31_received_waits`, `C31_frames`, `C31_any_messages`, `C31_any_messages_total`, `C31_run` |
| C32 | The broker never emits a message without frames, except two cases | `PropWire.v` | `C32_empty_iff`, `C32_misdelivered` |
| C33 | Queue manager interface contract | `PropQueue.v` | `C33_runs_use_interface`, `C33_enqueue`, `C33_assign`, `C33_finished`, `C33_cancelled`, `C33_current`, `C33_count`, `C33_add`, `C33_terminated` |
| C34 | Registry and queue manager agree on the workers | `PropDispatch.v` | `C34_same_workers`, `C34_removed_for_good` |
| C35 | Notifications to the frontend are well formed and become one POST | `PropNotifier.v` | `C35_posted`, `C35_any`, `C35_odd` |
| C36 | POST body is unambiguous only without reserved characters | `PropNotifier.v` | `C36_round_trip`, `C36_failed`, `C36_done`, `C36_refuted_injection`, `C36_refuted_replaced` |
| C37 | Asynchronous handler processes every message once, in order | `PropAsync.v` | `C37_mailbox`, `C37_own_steps`, `C37_at_most_once`, `C37_exactly_once`, `C37_room`, `C37_terminates`, `C37_hangs`, `C37_notifications` |
| C38 | Reactor routing | `PropReactor.v` | `C38_tables`, `C38_order`, `C38_sound`, `C38_socket`, `C38_no_socket`, `C38_process`, `C38_round`, `C38_fair`, `C38_broker`, `C38_broker_setup` |
| C39 | Timer text round trip | `PropText.v` | `C39_round_trip`, `C39_stoll` |
| C40 | Only poll waiting time is counted | `PropReactor.v` | `C40_depends`, `C40_kept`, `C40_removed`, `C40_uncounted` |
| C41 | Configuration loading | `PropConfig.v` | `C41_texts`, `C41_numbers`, `C41_fails`, `C41_manager`, `C41_interval` |
| C42 | Log levels are ordered | `PropLogger.v` | `C42_names`, `C42_compare`, `C42_header` |
| C43 | Output alphabet of the broker | `PropWire.v` | `C43_says` |
| C44 | Exact outcome of a done report | `PropOutcome.v` | `C44_ok`, `C44_failed`, `C44_internal_announced`, `C44_internal_last`, `C44_internal_again` |
| C45 | Exact outcome of an eval | `PropOutcome.v` | `C45_eval` |
| C46 | Exact outcome of a worker registration | `PropJoin.v` | `C46_new`, `C46_again` |
| C47 | Exact outcome of a timer tick | `PropTickOutcome.v` | `C47_tick`, `C47_quiet` |
| C48 | Start-up and exit status | `PropStartup.v` | `C48_serves`, `C48_sockets`, `C48_refuses`, `C48_numbers`, `C48_process` |
| C49 | Bounded waiting | `PropWait.v` | `C49_own_queue`, `C49_single_queue`, `C49_single_queue_clock` |
| C50 | How a job leaves its worker, and workers whose jobs never do | `PropStuck.v` | `C50_leaves`, `C50_kept`, `C50_hidden` |
| C51 | What the broker does not look at: payloads, metadata, client identities, names of jobs | `PropBlind.v` | `C51_blind`, `C51_blind_crash` |
| C52 | Worker objects are never released | `PropMemory.v` | `C52_timers`, `C52_newcomers`, `C52_never_forgotten` |
| C53 | What the environment can influence besides its messages | `PropOracle.v` | `C53_multi`, `C53_multi_run`, `C53_multi_crash`, `C53_single_run`, `C53_single_crash` |
| C54 | The broker together with workers that follow the protocol | `PropSystem.v` | `C54_survives`, `C54_matching`, `C54_one_job`, `C54_agreement`, `C54_no_phantom`, `C54_busy_known`, `C54_one_worker` |
| C55 | What workers get and the frontend hears goes back to a client | `PropDrain.v` | `C55_received`, `C55_evaluated`, `C55_said`, `C55_reported` |
| C56 | Workers and broker can always finish the work by themselves | `PropDrain.v` | `C56_drain`, `C56_drain_all` |
| C57 | The broker, its workers and the socket between them | `PropWired.v` | `C57_ideal`, `C57_real`, `C57_survives`, `C57_no_phantom` |
| C58 | Left to themselves, the broker and its workers come to rest with the work done | `PropFinish.v` | `C58_bounded`, `C58_goes_on`, `C58_comes_to_rest`, `C58_rest` |
| C59 | Answers of asynchronous handlers reach the reactor in order, or glued together if they have no data | `PropReplies.v` | `C59_unchanged`, `C59_in_order`, `C59_never_blocks`, `C59_all_read`, `C59_silent` |
| C60 | If all workers fall silent, every job is reported to the frontend in bounded time | `PropLost.v` | `C60_all_lost`, `C60_will_be_lost` |
| C61 | A job is sent to a worker again only after a failure | `PropAgain.v` | `C61_only_after_failure`, `C61_once` |
| C62 | How many messages the broker sends | `PropFlood.v` | `C62_each`, `C62_tick`, `C62_linear` |
| C63 | A broker started again among working workers | `PropLives.v` | `C63_survives`, `C63_matching`, `C63_one_job`, `C63_agreement`, `C63_origin`, `C63_forgotten`, `C63_reported`, `C63_adopts`, `C63_bounded`, `C63_comes_to_rest`, `C63_rest` |
| C64 | What the log tells | `PropJournal.v` | `C64_unchanged`, `C64_journal`, `C64_formats`, `C64_sent`, `C64_refused`, `C64_done`, `C64_free`, `C64_expired`, `C64_silence`, `C64_volume`, `C64_one_line` |
| C65 | How the process ends | `PropEnding.v` | `C65_course`, `C65_never`, `C65_terminated` |
| C66 | What the monitor and the frontend hear of jobs that end | `PropTold.v` | `C66_ledger` |
| C67 | Fair shares with one queue per worker, and their price | `PropRobin.v` | `C67_fair_share`, `C67_idle_beside_backlog` |
| C68 | Clients and the registry do not see the queue manager | `PropFront.v` | `C68_front`, `C68_crash_together_refuted` |
| C69 | The front side of the broker is a guest book | `PropBook.v` | `C69_book`, `C69_determined` |
| C70 | When a sign of life arrives between two ticks does not matter | `PropLife.v` | `C70_swap`, `C70_crash`, `C70_tick_refuted`, `C70_introduction_refuted` |
| C71 | The whole broker with one queue per worker is a deterministic ledger | `PropLedger.v` | `C71_ledger`, `C71_complete`, `C71_fatal`, `C71_determined` |
| C72 | The contract of the worker registry | `PropRegistry.v` | `C72_contents`, `C72_order`, `C72_by_name`, `C72_by_need` |
| C73 | The whole broker with one queue for all workers is a hall with a common pool | `PropPool.v` | `C73_hall`, `C73_allows`, `C73_complete`, `C73_determined` |
| C74 | From the command line to the messages | `PropWhole.v` | `C74_process`, `C74_complete`, `C74_dies`, `C74_allows`, `C74_may_die` |
| C75 | The HTTP helper and libcurl | `PropCurl.v` | `C75_get`, `C75_post`, `C75_one`, `C75_silent`, `C75_login`, `C75_login_one`, `C75_notifier`, `C75_login_refuted` |
| C76 | Workers are told apart by their names and nothing else | `PropAlias.v` | `C76_multi`, `C76_single`, `C76_single_ties`, `C76_others` |
| C77 | From the command line to the requests at the frontend | `PropErrands.v` | `C77_handed`, `C77_requests`, `C77_all`, `C77_course` |
| C78 | The log of the whole process, and that it can be reproduced | `PropChronicle.v` | `C78_log`, `C78_last_words`, `C78_multi`, `C78_single`, `C78_process_multi`, `C78_process`, `C78_texts`, `C78_levels` |
| C79 | Jobs and workers are what their headers say, not how they are written | `PropWording.v` | `C79_multi`, `C79_single`, `C79_single_ties`, `C79_rearranged`, `C79_metadata`, `C79_workers`, `C79_elsewhere` |

## 7. Assumptions of each theorem

Output of `Print Assumptions`, printed during the build under each of the 269 statements below:
"Closed under the global context", i.e. no axiom of any kind, for every one of them.

* `PropAgain.v`: `C61_only_after_failure`, `C61_once`
* `PropAlias.v`: `C76_multi`, `C76_single`, `C76_single_ties`, `C76_others`
* `PropAsync.v`: `C37_mailbox`, `C37_own_steps`, `C37_at_most_once`, `C37_exactly_once`, `C37_room`, `C37_terminates`, `C37_hangs`, `C37_notifications`
* `PropBlind.v`: `C51_blind`, `C51_blind_crash`
* `PropBook.v`: `C69_book`, `C69_determined`
* `PropChronicle.v`: `C78_log`, `C78_last_words`, `C78_multi`, `C78_single`, `C78_process_multi`, `C78_process`, `C78_texts`, `C78_levels`
* `PropConfig.v`: `C41_texts`, `C41_numbers`, `C41_fails`, `C41_manager`, `C41_interval`
* `PropCurl.v`: `C75_get`, `C75_post`, `C75_one`, `C75_silent`, `C75_login`, `C75_login_one`, `C75_notifier`, `C75_login_refuted`
* `PropDispatch.v`: `C04_C08_dispatch`, `C09_redispatch_bounded`, `C10_one_job_at_a_time`, `C10_unique_identity`, `C34_same_workers`, `C34_removed_for_good`
* `PropDrain.v`: `C55_received`, `C55_evaluated`, `C55_said`, `C55_reported`, `C56_drain`, `C56_drain_all`, `C56_drain_all_refuted`
* `PropEnding.v`: `C65_course`, `C65_never`, `C65_terminated`
* `PropErrands.v`: `C77_handed`, `C77_requests`, `C77_all`, `C77_course`
* `PropFatal.v`: `C23_fatal`, `C23_benign`
* `PropFinish.v`: `C58_bounded`, `C58_goes_on`, `C58_comes_to_rest`, `C58_rest`
* `PropFlood.v`: `C62_each`, `C62_tick`, `C62_linear`
* `PropFront.v`: `C68_front`, `C68_crash_together_refuted`
* `PropHex.v`: `C28_hex_text`
* `PropJobs.v`: `C01_conservation`, `C02_reports_bounded`, `C03_held_once`
* `PropJoin.v`: `C46_new`, `C46_again`
* `PropJournal.v`: `C64_unchanged`, `C64_journal`, `C64_formats`, `C64_sent`, `C64_refused`, `C64_done`, `C64_free`, `C64_expired`, `C64_silence`, `C64_volume`, `C64_one_line`
* `PropLedger.v`: `C71_ledger`, `C71_complete`, `C71_fatal`, `C71_determined`
* `PropLife.v`: `C70_swap`, `C70_crash`, `C70_tick_refuted`, `C70_introduction_refuted`
* `PropLives.v`: `C63_survives`, `C63_matching`, `C63_one_job`, `C63_agreement`, `C63_origin`, `C63_forgotten`, `C63_reported`, `C63_adopts`, `C63_bounded`, `C63_comes_to_rest`, `C63_rest`, `C63_all_reported_refuted`, `C63_survives_refuted`
* `PropLogger.v`: `C42_names`, `C42_compare`, `C42_header`
* `PropLost.v`: `C60_all_lost`, `C60_will_be_lost`
* `PropMemory.v`: `C52_timers`, `C52_newcomers`, `C52_never_forgotten`, `C52_released_refuted`
* `PropMessages.v`: `C05_eval_protocol`, `C05_eval_truncated`, `C06_accept_iff_servable`, `C06_frozen_rejects`, `C07_frozen_iff`, `C07_frozen_history`, `C20_ping_reply`, `C21_progress_forwarded`, `C22_ignored_harmless`, `C25_reinit_same`, `C26_reinit_changed`, `C26_shadowed`, `C27_stats_reply`
* `PropNotifier.v`: `C35_posted`, `C35_any`, `C35_odd`, `C36_round_trip`, `C36_failed`, `C36_done`, `C36_refuted_injection`, `C36_refuted_replaced`
* `PropOracle.v`: `C53_multi`, `C53_multi_run`, `C53_multi_crash`, `C53_single_run`, `C53_single_crash`
* `PropOutcome.v`: `C44_ok`, `C44_failed`, `C44_internal_announced`, `C44_internal_last`, `C44_internal_again`, `C45_eval`
* `PropPings.v`: `C15_communicating_kept`, `C16_silent_removed`, `C17_fresh_silence`, `C17_zero_liveness`, `C17_detection_refuted`, `C19_survivors_refuted`, `C19_extra_failure_refuted`
* `PropPool.v`: `C73_hall`, `C73_complete`, `C73_allows`, `C73_determined`
* `PropQueue.v`: `C33_runs_use_interface`, `C33_enqueue`, `C33_assign`, `C33_finished`, `C33_cancelled`, `C33_current`, `C33_count`, `C33_add`, `C33_terminated`, `C11_oldest_first`, `C11_oldest_first_run`, `C11_sort_adequate`, `C12_work_conserving`, `C12_unrestricted_refuted`, `C13_front_first`, `C13_worker_fifo`, `C13_no_idle_backlog`, `C13_unrestricted_refuted`, `C14_one_receiver`, `C14_least_recently_given`, `C14_round_robin`
* `PropReactor.v`: `C38_tables`, `C38_order`, `C38_sound`, `C38_socket`, `C38_no_socket`, `C38_process`, `C38_round`, `C38_fair`, `C38_broker`, `C38_broker_setup`, `C40_depends`, `C40_kept`, `C40_removed`, `C40_uncounted`
* `PropRegistry.v`: `C72_contents`, `C72_order`, `C72_by_name`, `C72_by_need`
* `PropReplies.v`: `C59_unchanged`, `C59_in_order`, `C59_never_blocks`, `C59_all_read`, `C59_silent`
* `PropRobin.v`: `C67_fair_share`, `C67_idle_beside_backlog`
* `PropStartup.v`: `C48_serves`, `C48_sockets`, `C48_refuses`, `C48_numbers`, `C48_process`
* `PropStuck.v`: `C50_leaves`, `C50_kept`, `C50_hidden`
* `PropSystem.v`: `C54_survives`, `C54_matching`, `C54_one_job`, `C54_agreement`, `C54_no_phantom`, `C54_busy_known`, `C54_one_worker`, `C54_survives_refuted`
* `PropText.v`: `C24_header_frame`, `C24_eval_headers`, `C24_init_headers`, `C28_hex_injective`, `C28_description_injective`, `C29_hwgroup`, `C30_threads`, `C30_threads_throws`, `C30_registration_throws`, `C39_round_trip`, `C39_stoll`
* `PropTick.v`: `C18_tick_accounts`
* `PropTickOutcome.v`: `C47_tick`, `C47_quiet`
* `PropTold.v`: `C66_ledger`
* `PropWait.v`: `C49_own_queue`, `C49_single_queue`, `C49_single_queue_clock`
* `PropWhole.v`: `C74_process`, `C74_complete`, `C74_dies`, `C74_allows`, `C74_may_die`
* `PropWire.v`: `C31_delivery`, `C31_addressee`, `C31_received`, `C31_received_waits`, `C31_frames`, `C31_any_messages`, `C31_any_messages_total`, `C31_run`, `C32_empty_iff`, `C32_misdelivered`, `C43_says`
* `PropWired.v`: `C57_ideal`, `C57_real`, `C57_survives`, `C57_no_phantom`, `C57_no_phantom_refuted`, `C57_survives_refuted`
* `PropWording.v`: `C79_multi`, `C79_single`, `C79_single_ties`, `C79_rearranged`, `C79_metadata`, `C79_workers`, `C79_elsewhere`
