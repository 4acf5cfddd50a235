{
 "claims": [
  {
   "property": "C01",
   "status": "proved",
   "theorems": [
    "C01_exclusive"
   ],
   "note": "For all histories in which task_done is only called for held items; C01_needs_proper_use shows that condition is needed."
  },
  {
   "property": "C02",
   "status": "proved",
   "theorems": [
    "C02_request_not_lost",
    "C02_line_is_handed_out",
    "C02_redo_enters_line",
    "C02_timer_puts",
    "C02_empty_means_all_handed",
    "C02_no_spurious"
   ],
   "note": ""
  },
  {
   "property": "C03",
   "status": "proved",
   "theorems": [
    "C03_merge",
    "C03_line_nodup",
    "C03_fifo"
   ],
   "note": ""
  },
  {
   "property": "C04",
   "status": "proved",
   "theorems": [
    "C04_never_early",
    "C04_earliest_counts",
    "C02_request_not_lost"
   ],
   "note": "Times are integers."
  },
  {
   "property": "C05",
   "status": "proved",
   "theorems": [
    "C05_backoff_delay",
    "C05_failures",
    "C05_monotone_bounded"
   ],
   "note": "Delays are integers in an arbitrary unit."
  },
  {
   "property": "C06",
   "status": "partial",
   "theorems": [
    "C06_wakeups_partial",
    "C06_enough_wakeups_partial",
    "C06_wakeups_refuted"
   ],
   "note": "False in general: cancelling a get() between its wake-up and its next run loses the wake-up (C06_wakeups_refuted). Proved for histories where that does not happen."
  },
  {
   "property": "C07",
   "status": "proved",
   "theorems": [
    "C07_close"
   ],
   "note": ""
  },
  {
   "property": "C08",
   "status": "proved",
   "theorems": [
    "C08_finite_map",
    "C08_dump",
    "C08_same_route",
    "C08_independent"
   ],
   "note": ""
  },
  {
   "property": "C09",
   "status": "proved",
   "theorems": [
    "C09_longest_match",
    "C09_longest_unique",
    "C09_has_match"
   ],
   "note": ""
  },
  {
   "property": "C10",
   "status": "proved",
   "theorems": [
    "C10_rest",
    "C10_forward",
    "C09_longest_match"
   ],
   "note": "Includes ServeHTTP's rewriting of host, path and query."
  },
  {
   "property": "C11",
   "status": "proved",
   "theorems": [
    "C11_no_garbage",
    "C11_keys_unique",
    "C11_empty",
    "C11_history_independent"
   ],
   "note": ""
  },
  {
   "property": "C12",
   "status": "proved",
   "theorems": [
    "C12_ids",
    "C12_gap_free",
    "C12_gone",
    "C12_table"
   ],
   "note": "For every non-negative max_events; Example C12_negative_limit_refuted shows that a negative value breaks it."
  },
  {
   "property": "C13",
   "status": "proved",
   "theorems": [
    "C13_past_table",
    "C13_newest",
    "C13_drained",
    "C13_fetch"
   ],
   "note": "Targets the proxy cannot use (empty, unparsable, wrong scheme) do no harm to other routes; a name must not be given both usable and unusable targets, and paths must name distinct routes: Examples C13_needs_* show both conditions are needed."
  },
  {
   "property": "C14",
   "status": "partial",
   "theorems": [
    "C14_bounded_partial",
    "C14_unbounded",
    "C14_bounded_refuted"
   ],
   "note": "Holds for max_events >= 2; false for 0 and 1."
  },
  {
   "property": "C15",
   "status": "partial",
   "theorems": [
    "C15_recovers_partial",
    "C15_recovers_refuted"
   ],
   "note": "False: a proxy that reconnects before any failed request keeps stale routes. Proved from the first full fetch after the restart."
  },
  {
   "property": "C16",
   "status": "proved",
   "theorems": [
    "C16_passthrough",
    "C16_spliced_prefix"
   ],
   "note": "For every buffer size >= 5 (4096 in the code)."
  },
  {
   "property": "C17",
   "status": "proved",
   "theorems": [
    "C17_spliced_iff",
    "C17_http_iff",
    "C17_total"
   ],
   "note": "The name in a ClientHello is an arbitrary function of its bytes."
  },
  {
   "property": "C18",
   "status": "proved",
   "theorems": [
    "C18_status_forward"
   ],
   "note": "For databases that never reuse a primary key, or histories without a restart (ids_ok)."
  },
  {
   "property": "C19",
   "status": "partial",
   "theorems": [
    "C19_stopped_final_partial",
    "C19_worker_final_partial",
    "C19_heartbeat_ignored",
    "C19_stopped_final_refuted"
   ],
   "note": "Proved: a finished cluster keeps its status FINISHED forever, a finished worker stays finished, heartbeats leave it alone. False: a status check that was under way when the cluster stopped still rewrites its record's target, after which the status API cannot show it (C19_stopped_final_refuted)."
  },
  {
   "property": "C20",
   "status": "proved",
   "theorems": [
    "C20_idle_settled",
    "C20_stop_carried_out"
   ],
   "note": "Safety form: whenever nothing is queued or in progress, every cluster has reached its target. That the work eventually runs out is not claimed."
  },
  {
   "property": "C21",
   "status": "proved",
   "theorems": [
    "C21_worker_cap"
   ],
   "note": ""
  },
  {
   "property": "C22",
   "status": "proved",
   "theorems": [
    "C22_enough",
    "C22_enough_since",
    "C22_enough_since_change",
    "C22_not_too_many",
    "C22_surplus"
   ],
   "note": ""
  },
  {
   "property": "C23",
   "status": "partial",
   "theorems": [
    "C23_cluster_stop_called",
    "C23_worker_stop_called_partial",
    "C23_worker_or_crash_partial",
    "C23_worker_stop_called_refuted"
   ],
   "note": "Proved for clusters, and for workers of gateways that do not crash. False with a crash during the start of a worker: the worker is marked stopped without a stop call."
  },
  {
   "property": "C24",
   "status": "proved",
   "theorems": [
    "C24_started_once",
    "C24_one_operation",
    "C24_not_concurrent"
   ],
   "note": "At most once per life of the gateway process; after a crash during a start the start is repeated (shown as an example)."
  },
  {
   "property": "C25",
   "status": "proved",
   "theorems": [
    "C25_routes_live",
    "C25_running_routed"
   ],
   "note": ""
  },
  {
   "property": "C26",
   "status": "proved",
   "theorems": [
    "C26_purge_exact"
   ],
   "note": "For databases that never reuse a primary key."
  },
  {
   "property": "C27",
   "status": "partial",
   "theorems": [
    "C27_memory_is_database_partial",
    "C27_restart_keeps_partial",
    "C27_memory_is_database_refuted"
   ],
   "note": "Proved for databases that never reuse a primary key. False for SQLite's default ids: a stale check answer for a purged cluster overwrites the record of the new cluster that got the same id."
  },
  {
   "property": "C28",
   "status": "proved",
   "theorems": [
    "C28_stop_idempotent",
    "C28_stop_wins"
   ],
   "note": ""
  },
  {
   "property": "C29",
   "status": "partial",
   "theorems": [
    "C29_reportable_partial",
    "C29_list_active",
    "C29_reportable_refuted"
   ],
   "note": "Proved for every cluster that is not finished with a stale target; false otherwise, the status listing then fails with KeyError."
  },
  {
   "property": "C30",
   "status": "partial",
   "theorems": [
    "C30_timeouts_exact_partial",
    "C30_heard_partial",
    "C30_timeouts_refuted"
   ],
   "note": "Proved for gateways that did not restart. False after a restart: a running cluster without a heartbeat yet makes the check raise TypeError, so no cluster is ever timed out."
  },
  {
   "property": "C31",
   "status": "partial",
   "theorems": [
    "C31_fail_count",
    "C31_limit_reached_partial",
    "C31_limit_only",
    "C31_limit_refuted"
   ],
   "note": "Proved: the count is exact, and a running cluster at its turn is failed iff the limit is reached. False that it is failed whenever the limit is reached: the last failure may wake nobody."
  },
  {
   "property": "C32",
   "status": "partial",
   "theorems": [
    "C32_heartbeat_accepted_partial",
    "C32_heartbeat_refuted"
   ],
   "note": "Proved for schedulers that never forget a worker they reported; false otherwise (AssertionError)."
  },
  {
   "property": "C33",
   "status": "proved",
   "theorems": [
    "C33_issued",
    "C33_not_shared",
    "C33_one_session",
    "C33_never_raises"
   ],
   "note": "Assumes that the cookies drawn by uuid4 are distinct."
  },
  {
   "property": "C34",
   "status": "partial",
   "theorems": [
    "C34_expires_partial",
    "C34_valid_partial",
    "C34_full_lifetime_refuted"
   ],
   "note": "False for a login while an older session is live: it gets the old cookie. Proved: no cookie is accepted later than the lifetime after it was first handed out, and until then it is accepted."
  },
  {
   "property": "C35",
   "status": "proved",
   "theorems": [
    "C35_own_only",
    "C35_forbidden",
    "C35_nobody",
    "C35_vouched"
   ],
   "note": "The backend's lookup by name and by user are assumed to answer with that name and user."
  },
  {
   "property": "C36",
   "status": "proved",
   "theorems": [
    "C36_token_scope",
    "C36_heartbeat_iff",
    "C36_heartbeat_refused",
    "C36_no_login"
   ],
   "note": ""
  },
  {
   "property": "C37",
   "status": "partial",
   "theorems": [
    "C37_running_partial",
    "C37_owner_partial",
    "C37_listing_refuted"
   ],
   "note": "False: list_clusters uses the full report. Proved: only running clusters' credentials are shown, and only to the owner."
  },
  {
   "property": "C38",
   "status": "proved",
   "theorems": [
    "C38_names_differ",
    "C38_accepts_iff"
   ],
   "note": "Kinds without a colon (the hub has user and service)."
  },
  {
   "property": "C39",
   "status": "partial",
   "theorems": [
    "C39_scale",
    "C39_adapt_limit_partial",
    "C39_adapt_answer_partial",
    "C39_adapt_refuted"
   ],
   "note": "Scaling proved in full. Adapting: bounds are kept within a configured maximum, but minimum <= maximum is not enforced and without a maximum nothing is checked (refuted)."
  },
  {
   "property": "C40",
   "status": "proved",
   "theorems": [
    "C40_parse_iff",
    "C40_again",
    "C40_defaults"
   ],
   "note": "Field names are distinct."
  },
  {
   "property": "C41",
   "status": "proved",
   "theorems": [
    "C41_request",
    "C41_assignment"
   ],
   "note": "Field names are distinct; values are JSON values."
  },
  {
   "property": "C42",
   "status": "partial",
   "theorems": [
    "C42_integer",
    "C42_float_partial",
    "C42_nan_refuted"
   ],
   "note": "Integers proved in full; NaN passes the bound checks of a float option (refuted)."
  },
  {
   "property": "C43",
   "status": "proved",
   "theorems": [
    "C43_configuration",
    "C43_select",
    "C43_handler",
    "C43_undeclared"
   ],
   "note": "The traits' own conversions and the handler are arbitrary partial functions."
  },
  {
   "property": "C44",
   "status": "proved",
   "theorems": [
    "C44_largest",
    "C44_unlimited",
    "C44_default",
    "C44_scheduler_fits"
   ],
   "note": "Cores are rationals."
  },
  {
   "property": "C45",
   "status": "partial",
   "theorems": [
    "C45_pbs_partial",
    "C45_pbs_large_partial",
    "C45_pbs_refuted",
    "C45_slurm_partial",
    "C45_slurm_refuted",
    "C45_read"
   ],
   "note": "Slurm sizes below 10 KiB are sent as 1K, and sizes over 2^53 bytes can lose one part in 2^53 (refuted); in between proved for every size."
  },
  {
   "property": "C46",
   "status": "partial",
   "theorems": [
    "C46_window",
    "C46_order",
    "C46_not_before",
    "C46_needed_partial",
    "C46_prompt_refuted"
   ],
   "note": "The bound on every window is proved. That no call waits needlessly is false after a long pause (the elapsed time is capped); proved without such pauses. Rationals instead of floats."
  },
  {
   "property": "C47",
   "status": "proved",
   "theorems": [
    "C47_get",
    "C47_bounded",
    "C47_evicts"
   ],
   "note": "Replacing the value of a present key does not count as a use."
  },
  {
   "property": "C48",
   "status": "proved",
   "theorems": [
    "C48_keys",
    "C48_order",
    "C48_kept",
    "C48_taken",
    "C48_made",
    "C48_unchanged"
   ],
   "note": "Both as values and on mutable objects (nothing readable before changes)."
  },
  {
   "property": "C49",
   "status": "proved",
   "theorems": [
    "C49_last_said",
    "C49_disjoint",
    "C49_counted",
    "C49_once"
   ],
   "note": "Pod names are not reused; a relist is atomic with respect to the API server."
  },
  {
   "property": "C50",
   "status": "partial",
   "theorems": [
    "C50_up",
    "C50_down_who",
    "C50_down_partial",
    "C50_down_refuted"
   ],
   "note": "Scaling up creates exactly the missing number. Scaling down slices the pending pods wrongly and can leave fewer workers than requested (refuted); proved when at most twice the surplus is pending."
  },
  {
   "property": "C51",
   "status": "partial",
   "theorems": [
    "C51_at_most",
    "C51_stops",
    "C51_expected_partial",
    "C51_deletions",
    "C51_deletions_at_rest",
    "C51_expected_refuted"
   ],
   "note": "The expected number is exact unless a request fails although its pod was made (then it can become negative)."
  },
  {
   "property": "C52",
   "status": "partial",
   "theorems": [
    "C52_forward_partial",
    "C52_stopped",
    "C52_completion",
    "C52_running",
    "C52_running_refuted",
    "C52_failed_refuted"
   ],
   "note": "With a cache that has seen the last recorded status the phase only moves forward. A lagging cache lets Running become Pending and Failed become Stopped (refuted). Completion times, what Running implies and finality of Stopped hold in every execution."
  },
  {
   "property": "C53",
   "status": "proved",
   "theorems": [
    "C53_cache",
    "C53_forward",
    "C53_relist",
    "C53_told",
    "C53_old",
    "C53_deleted",
    "C53_catches_up"
   ],
   "note": "Every watched object carries a resourceVersion."
  },
  {
   "property": "C54",
   "status": "partial",
   "theorems": [
    "C54_current",
    "C54_addresses",
    "C54_private",
    "C54_list_all",
    "C54_own_partial",
    "C54_consistent_partial",
    "C54_drains",
    "C54_own_refuted"
   ],
   "note": "A cluster object whose user name is changed stays in the former user's listing for good (refuted); proved for objects that keep their user name. All else is proved in full."
  },
  {
   "property": "C55",
   "status": "partial",
   "theorems": [
    "C55_grows",
    "C55_shrinks",
    "C55_no_surplus",
    "C55_bounds_partial",
    "C55_bounds_refuted"
   ],
   "note": "When the bounds are changed while adaptive scaling is on, sizes outside the new bounds can be requested until the window has passed (refuted); proved from the first turn after switching on, or from the w-th turn after a change."
  },
  {
   "property": "C56",
   "status": "proved",
   "theorems": [
    "C56_disjoint",
    "C56_complete",
    "C56_connected",
    "C56_closed",
    "C56_excess",
    "C56_retired",
    "C56_lost_soon",
    "C56_surplus_soon"
   ],
   "note": "The scheduler does not admit two connected workers of the same name, and chooses workers to close among the connected ones."
  },
  {
   "property": "C57",
   "status": "proved",
   "theorems": [
    "C57_only_idle"
   ],
   "note": "Every change of what the scheduler works on is a logged transition."
  },
  {
   "property": "C58",
   "status": "partial",
   "theorems": [
    "C58_asks_partial",
    "C58_ends",
    "C58_own",
    "C58_never",
    "C58_asks_refuted",
    "C58_off_refuted",
    "C58_cancelled_refuted"
   ],
   "note": "A close during the submission leaves the cluster running, close(shutdown=False) during the start stops it nevertheless, and a cancelled close disables all later ones (refuted). Proved for every other moment."
  },
  {
   "property": "C59",
   "status": "partial",
   "theorems": [
    "C59_failed",
    "C59_yarn_partial",
    "C59_yarn_refuted",
    "C59_yarn_reach_refuted",
    "C59_yarn_clusters_partial",
    "C59_yarn_clusters_refuted"
   ],
   "note": "With workers of two clusters the results are those of the last cluster only and are attributed to the wrong workers; one unreachable application or one cluster without an application id prevents every check (refuted). Proved for workers of one cluster and for clusters with known ids."
  },
  {
   "property": "C60",
   "status": "proved",
   "theorems": [
    "C60_read_back",
    "C60_stored",
    "C60_no_key"
   ],
   "note": "Fernet is assumed to decrypt what it encrypted and to refuse other keys; tokens are ASCII."
  },
  {
   "property": "C61",
   "status": "proved",
   "theorems": [
    "C61_forward",
    "C61_not_running"
   ],
   "note": ""
  },
  {
   "property": "C62",
   "status": "proved",
   "theorems": [
    "C62_flags_match"
   ],
   "note": "Under ids_ok as for C18."
  },
  {
   "property": "C63",
   "status": "partial",
   "theorems": [
    "C63_complete_partial",
    "C63_live_partial",
    "C63_half_close_refuted"
   ],
   "note": "False: proxyConnections closes the wrong halves, so that the end of one direction cuts the other one. Proved: the direction that ends first is complete; while nobody has finished all data is delivered."
  },
  {
   "property": "C64",
   "status": "partial",
   "theorems": [
    "C64_reaches_partial",
    "C64_reaches_refuted"
   ],
   "note": "True for first records of at most 4096 bytes, false for larger ones."
  },
  {
   "property": "C65",
   "status": "proved",
   "theorems": [
    "C65_simple_password"
   ],
   "note": "Base64 decoding is an arbitrary partial function."
  },
  {
   "property": "C66",
   "status": "partial",
   "theorems": [
    "C66_operator_partial",
    "C66_user_partial",
    "C66_max_refuted"
   ],
   "note": "False: an option override that is assigned after the maximum was validated. Proved when overrides and operator settings do not overlap, or the operator sets only the maximum. Rests on the order in which traitlets assigns and validates."
  },
  {
   "property": "C67",
   "status": "partial",
   "theorems": [
    "C67_never_more_partial",
    "C67_restart_refuted",
    "C67_expired_refuted"
   ],
   "note": "False after a restart of the controller or when expectations expire while a pod has no container status; proved for every other execution."
  },
  {
   "property": "C68",
   "status": "partial",
   "theorems": [
    "C68_running_partial",
    "C68_pending_partial",
    "C68_pending_refuted",
    "C68_evicted_refuted"
   ],
   "note": "False when the scheduler's pod is deleted while the cluster is pending, or fails without container statuses; proved otherwise."
  },
  {
   "property": "C69",
   "status": "proved",
   "theorems": [
    "C69_expired",
    "C69_current"
   ],
   "note": "The second theorem assumes that runs start with an up-to-date status."
  },
  {
   "property": "C70",
   "status": "partial",
   "theorems": [
    "C70_wakes",
    "C70_current",
    "C70_told_partial",
    "C70_soon_partial",
    "C70_fires",
    "C70_told_refuted",
    "C70_soon_refuted"
   ],
   "note": "Lost wake-up: a size requested while a heartbeat is in flight is reported only after the regular period, an hour on Kubernetes (refuted). Proved when nothing arrives in the middle of a heartbeat."
  },
  {
   "property": "C71",
   "status": "partial",
   "theorems": [
    "C71_explicit_partial",
    "C71_answered_partial",
    "C71_swallowed",
    "C71_explicit_refuted"
   ],
   "note": "A cancellation arriving while the adaptive loop interrupts the heartbeat loop is swallowed: the request waits until another one ends the loop, and adaptive scaling goes on (refuted). Proved for every other moment, and for every request from the moment it is answered."
  },
  {
   "property": "C72",
   "status": "partial",
   "theorems": [
    "C72_shuts_partial",
    "C72_shuts_refuted"
   ],
   "note": "The checking task dies of the first failed request (refuted). Proved as long as none failed."
  },
  {
   "property": "C73",
   "status": "proved",
   "theorems": [
    "C59_failed",
    "C73_slurm",
    "C73_pbs",
    "C73_local"
   ],
   "note": "Output in the documented form: words separated by blanks."
  },
  {
   "property": "C74",
   "status": "partial",
   "theorems": [
    "C74_gone_partial",
    "C74_inprocess_refuted"
   ],
   "note": "The test is the wrong way round: running ones fail, closed ones pass (refuted). Only the part about missing ones holds."
  },
  {
   "property": "C75",
   "status": "proved",
   "theorems": [
    "C75_notation",
    "C75_distinct",
    "C75_refused",
    "C75_environment",
    "C75_required"
   ],
   "note": "Keys given as bytes or ASCII text."
  },
  {
   "property": "C76",
   "status": "proved",
   "theorems": [
    "C76_status_meaning"
   ],
   "note": "Under ids_ok as for C18."
  },
  {
   "property": "C77",
   "status": "proved",
   "theorems": [
    "C77_heartbeat_exact"
   ],
   "note": "For heartbeats that are not refused (C32). Under ids_ok as for C18."
  },
  {
   "property": "C78",
   "status": "proved",
   "theorems": [
    "C78_list_exact"
   ],
   "note": "For databases that never reuse a primary key, and where the listing does not raise (C29)."
  },
  {
   "property": "C79",
   "status": "proved",
   "theorems": [
    "C79_end_cause",
    "C79_cause_in_history"
   ],
   "note": "Under ids_ok as for C18."
  },
  {
   "property": "C80",
   "status": "partial",
   "theorems": [
    "C80_worker_cause_partial",
    "C80_connected_partial",
    "C80_checked_refuted",
    "C80_started_refuted"
   ],
   "note": "The list of causes is proved. That a connected worker ends only by its scheduler's report, a check made while connected or the cluster's end is false: a check begun, or a start operation still in flight, when it connected can still fail it."
  },
  {
   "property": "C81",
   "status": "proved",
   "theorems": [
    "C81_stop_ends",
    "C81_told_ends",
    "C81_worker_ends",
    "C81_runs_exist"
   ],
   "note": "In endless runs of one process where each reconciler gets turns again and again and each backend operation ends or raises some day; such runs exist from every reachable state. Under ids_ok as for C18."
  },
  {
   "property": "C82",
   "status": "proved",
   "theorems": [
    "C82_starts",
    "C82_worker_starts",
    "C82_reports_up",
    "C82_running_up"
   ],
   "note": "Fairness as for C81. C82_reports_up assumes that the heartbeats of the cluster carry a non-empty scheduler address and that this one is accepted (C32)."
  },
  {
   "property": "C83",
   "status": "proved",
   "theorems": [
    "C83_wait_over"
   ],
   "note": "Fairness as for C81."
  },
  {
   "property": "C84",
   "status": "partial",
   "theorems": [
    "C84_deletes",
    "C84_gone_partial",
    "C84_gone_refuted"
   ],
   "note": "False when a run created the pod but its status was not recorded before the cluster was stopped: the pod goes on until the record is deleted (refuted). Proved when every run that creates something gets its status recorded and starts from the last recorded status; the deletion of what the status knows is proved in general."
  },
  {
   "property": "C85",
   "status": "proved",
   "theorems": [
    "C85_set_by_gateway",
    "C85_as_asked",
    "C85_yarn_worker"
   ],
   "note": "For inherited_environment lists that do not contain the gateway's own variables."
  },
  {
   "property": "C86",
   "status": "partial",
   "theorems": [
    "C86_variables_partial",
    "C86_variables_refuted",
    "C86_command_partial",
    "C86_command_refuted",
    "C86_worker_told",
    "C86_scheduler_told"
   ],
   "note": "False for variable names with a comma or an equals sign and for command words that are special to the shell (refuted); proved for all others. How PBS, Slurm and sh read their input is an assumption (job_env, shell words)."
  },
  {
   "property": "C87",
   "status": "partial",
   "theorems": [
    "C87_service_partial",
    "C87_known_partial",
    "C87_foreign_partial",
    "C87_service_known",
    "C87_cluster_known",
    "C87_refuted"
   ],
   "note": "False when the configured extra pod labels replace the gateway's labels (refuted); proved when they do not."
  },
  {
   "property": "C88",
   "status": "proved",
   "theorems": [
    "C88_dashboard",
    "C88_dashboard_only",
    "C88_scheduler",
    "C88_ports",
    "C88_worker"
   ],
   "note": "Namespaces and names without dots and slashes. How Traefik reads PathPrefix and HostSNI rules is an assumption (web_to, tcp_to)."
  },
  {
   "property": "C89",
   "status": "partial",
   "theorems": [
    "C89_set_by_gateway_partial",
    "C89_as_asked_partial",
    "C89_worker_name_partial",
    "C89_files_partial",
    "C89_resources_partial",
    "C89_command_partial",
    "C89_refuted"
   ],
   "note": "False when the extra container settings name a variable of the gateway's (refuted); proved when extra settings only add to lists and leave the setting in question alone. Cores are exact up to half a thousandth."
  },
  {
   "property": "C90",
   "status": "proved",
   "theorems": [
    "C90_cluster_gone",
    "C90_scheduler_gone",
    "C90_kept"
   ],
   "note": "The garbage collector's rule (settled) is an assumption about Kubernetes."
  },
  {
   "property": "C91",
   "status": "proved",
   "theorems": [
    "C91_heartbeat",
    "C91_unknown",
    "C91_stop"
   ],
   "note": "Namespaces and names without dots."
  },
  {
   "property": "C92",
   "status": "partial",
   "theorems": [
    "C92_local_partial",
    "C92_slurm",
    "C92_pbs",
    "C92_yarn",
    "C92_local_refuted"
   ],
   "note": "False for local processes when clusters_directory is a relative path (refuted); proved for absolute ones and for Slurm, PBS and YARN. That PBS copies the staged files and that YARN localizes the files are assumptions (sandbox_opens, yarn_opens)."
  },
  {
   "property": "C93",
   "status": "partial",
   "theorems": [
    "C93_private_local",
    "C93_private_job",
    "C93_local_partial",
    "C93_job_partial",
    "C93_others",
    "C93_starts",
    "C93_start_stop",
    "C93_local_refuted",
    "C93_job_refuted",
    "C93_never_starts",
    "C93_root_refuted"
   ],
   "note": "False after a start that failed half-way: its directory with certificate or key stays (refuted). LocalBackend, which runs processes as their users, passes single characters of paths to chown: it gives the root directory to the user and never starts anything (C93_never_starts, C93_root_refuted)."
  },
  {
   "property": "C94",
   "status": "partial",
   "theorems": [
    "C94_one_job",
    "C94_no_job",
    "C94_starts",
    "C94_stop_partial",
    "C94_stop_works_partial",
    "C94_worker_stop",
    "C94_stop_refuted"
   ],
   "note": "False when the staging directory is gone, also when an earlier attempt to stop removed it and then failed to cancel: the job is never cancelled (refuted)."
  },
  {
   "property": "C95",
   "status": "partial",
   "theorems": [
    "C95_asked",
    "C95_bounded",
    "C95_stopped",
    "C95_survived",
    "C95_mercy",
    "C95_own_partial",
    "C95_own_refuted"
   ],
   "note": "False in that a reused process id gets the later signals (refuted); everything else is proved. Sleeps take exactly their time."
  },
  {
   "property": "C96",
   "status": "partial",
   "theorems": [
    "C96_proxy_partial",
    "C96_reaches_partial",
    "C96_same_partial",
    "C96_links",
    "C96_no_scheme_refuted",
    "C96_ipv6_refuted"
   ],
   "note": "False for addresses without a scheme (the host becomes None) and for IPv6 literals (brackets are lost and the connection raises); proved for hosts of letters, digits, dots, dashes and underscores. urlparse is modelled for ASCII text without control characters and blanks."
  },
  {
   "property": "C97",
   "status": "partial",
   "theorems": [
    "C97_once",
    "C97_asks",
    "C97_told",
    "C97_kerberos_refuted"
   ],
   "note": "False with Kerberos: of two first calls made at the same time one can be carried out and yet raise that the negotiation failed (refuted). Proved for all other errors and authenticators. Connection errors and timeouts are not modelled."
  },
  {
   "property": "C98",
   "status": "partial",
   "theorems": [
    "C98_acts",
    "C98_basic_partial",
    "C98_hub",
    "C98_kerberos_partial",
    "C98_kerberos_error_refuted",
    "C98_colon_refuted",
    "C98_latin1_refuted"
   ],
   "note": "False for names with a colon (cut there), names that are not ASCII (error 500), and with Kerberos for a first call that ends in an error (its kind is lost) (refuted); proved otherwise. Cookies that the client sends are ones it was given; uuid4 does not repeat."
  },
  {
   "property": "C99",
   "status": "partial",
   "theorems": [
    "C99_not_overlooked",
    "C99_exist_partial",
    "C99_no_leftovers",
    "C99_view",
    "C99_deleted_early_refuted"
   ],
   "note": "False for a pod that is deleted before its status says anything: it is expected for ever, and nothing wakes the controller (refuted). Proved when the expectations are met. That a key on the queue is handed out is C01-C03."
  },
  {
   "property": "C100",
   "status": "proved",
   "theorems": [
    "C100_one",
    "C100_restarted",
    "C100_pauses",
    "C100_watched",
    "C100_ended"
   ],
   "note": "Time in half seconds; a sleep takes exactly its time. That the proxy ends when told so is Go's default for SIGTERM, and awaitShutdown for the end of its input."
  },
  {
   "property": "C101",
   "status": "partial",
   "theorems": [
    "C101_only",
    "C101_own_partial",
    "C101_generated",
    "C101_refuted"
   ],
   "note": "False for tokens that end in a blank or contain a control character such as a line end: the proxy's header is trimmed or refused, and the gateway never lets its own proxy in (refuted). Proved for printable tokens, and for made-up ones."
  },
  {
   "property": "C102",
   "status": "proved",
   "theorems": [
    "C102_reaches",
    "C102_pair",
    "C102_no_token"
   ],
   "note": "For non-empty tokens and urls that Go can parse."
  },
  {
   "property": "C103",
   "status": "partial",
   "theorems": [
    "C103_normal",
    "C103_kept",
    "C103_no_ipv6",
    "C103_gateway",
    "C103_api_url",
    "C103_one_socket",
    "C103_two_sockets",
    "C103_refuted"
   ],
   "note": "False for two spellings of one address (:8000 and 0.0.0.0:8000): the proxy tries to listen there twice, and exits (refuted; when two sockets of Linux exclude each other is assumed). The rest is proved."
  },
  {
   "property": "C104",
   "status": "partial",
   "theorems": [
    "C104_partial",
    "C104_refuted"
   ],
   "note": "False with the default token and gateway address, which are made up by each process for itself (refuted). Proved if both are set."
  },
  {
   "property": "C105",
   "status": "proved",
   "theorems": [
    "C105_arrives",
    "C105_cut"
   ],
   "note": "See C106 for lines longer than 64 KiB. Text is proper Unicode: a lone surrogate would arrive as U+FFFD. Go's JSON decoder is modelled for ASCII input and numbers without fraction and exponent, which is all that json.dumps writes here."
  },
  {
   "property": "C106",
   "status": "partial",
   "theorems": [
    "C106_catches_up_partial",
    "C106_small_log",
    "C106_stuck",
    "C106_refuted",
    "C106_large_log_refuted"
   ],
   "note": "False: a change whose line is longer than 64 KiB, which any user's scheduler can cause by reporting a long address, ends the stream without an error, and the proxy asks for it again and again, so that the routes of later clusters never arrive (refuted); likewise a large max_events with many ordinary changes (refuted). Proved if the missed changes fit in 64 KiB, which is so if none takes more than (65521 / max_events) - 2 bytes."
  },
  {
   "property": "C107",
   "status": "partial",
   "theorems": [
    "C107_not_after",
    "C107_ready_partial",
    "C107_refuted"
   ],
   "note": "False with YARN: the reconcilers work on what the database has while do_setup waits for the resource manager; a cluster that was to be stopped is recorded as closed and its application runs on, a cluster that was to be started is failed (refuted). Proved for the end of the backend's life, and for its beginning for backends whose do_setup does not wait."
  },
  {
   "property": "C108",
   "status": "partial",
   "theorems": [
    "C108_cause",
    "C108_partial",
    "C108_before_db",
    "C108_refuted"
   ],
   "note": "False with stop_clusters_on_shutdown, which is the default: a gateway that finds its port taken stops all clusters in its database before it exits (refuted; this needs a database on disk and clusters left by a gateway that was killed or still runs). Proved if it is off, and for failures before the database is opened; C108_cause names all causes. A second gateway that shares the database of a running one is not modelled as such: it is the same process with the records it finds."
  },
  {
   "property": "C109",
   "status": "partial",
   "theorems": [
    "C109_code",
    "C109_released",
    "C109_can_end",
    "C109_refuted"
   ],
   "note": "False with YARN: if do_setup fails, do_cleanup raises, and the proxy process is not told to end (refuted; the proxy ends by itself when its standard input is closed, C100). The exit code, what a successful stop releases, and that the end can be reached are proved. That ISession, IReconcilers and ILoad raise, and a database call that fails in cleanup, are left out."
  },
  {
   "property": "C110",
   "status": "proved",
   "theorems": [
    "C110_splice",
    "C110_one",
    "C110_http",
    "C110_http_one",
    "C110_outside"
   ],
   "note": "Two processes, the link between them and the clients as one system, from the scheduler's heartbeat to the spliced connection. Assumes that cluster names are distinct, not empty and without slash (uuid4 hex) and that database keys are not reused across restarts. The address may be one the cluster reported earlier."
  },
  {
   "property": "C111",
   "status": "partial",
   "theorems": [
    "C111_running_partial",
    "C111_dashboard_partial",
    "C111_gone_partial",
    "C111_gateway_partial",
    "C111_old_proxy_refuted"
   ],
   "note": "False for a proxy that is older than the gateway process (externally_managed): it asks for changes after a number counted by the old process, misses the first changes of the new one, and goes on sending clients of a stopped cluster to its old address and turning away those of a running cluster, while it counts as up to date (refuted). Proved for a proxy that is the gateway's child or was started later."
  },
  {
   "property": "C112",
   "status": "proved",
   "theorems": [
    "C112_drained",
    "C112_catches_up",
    "C112_fresh_proxy"
   ],
   "note": "For a proxy started with or after the gateway process. The limit on the length of lines (C106) is not part of this model."
  },
  {
   "property": "C113",
   "status": "partial",
   "theorems": [
    "C113_heartbeats_accepted_partial",
    "C113_heartbeats_accepted_refuted"
   ],
   "note": "False if a heartbeat overtakes an earlier one whose sender had given up waiting (refuted). Proved if the gateway handles the heartbeats of a cluster in the order in which they were sent; some may be lost. Worker names are those the gateway gave out; database keys are not reused across restarts. Stronger than C32, which assumes of each message what is proved here."
  },
  {
   "property": "C114",
   "status": "partial",
   "theorems": [
    "C114_right_size_partial",
    "C114_not_more_partial",
    "C114_right_size_refuted"
   ],
   "note": "False: when the answer to a heartbeat that announces a worker's departure is lost, and more workers are asked for before the next one, the worker stays but counts as leaving; when it is lost later it is not replaced, and the cluster has fewer workers than were asked for, at rest (refuted). Proved if no worker left as announced since the gateway last learnt of a change of the size; never more workers than asked for is proved without this. Heartbeats handled in order."
  },
  {
   "property": "C115",
   "status": "proved",
   "theorems": [
    "C115_retired_expected"
   ],
   "note": "For any order of arrival and any losses. Database keys are not reused across restarts."
  },
  {
   "property": "C116",
   "status": "partial",
   "theorems": [
    "C116_scale_partial",
    "C116_adapt_partial",
    "C116_off_partial",
    "C116_adapt_size_partial",
    "C116_scale_refuted"
   ],
   "note": "False: forward_message_to_scheduler repeats a request that was not answered in time; the message of the first attempt may be carried out after a later request was answered (refuted). Proved if no message of earlier requests is under way or waits in the scheduler when the request is made. The size is within adapt's bounds from the first turn on if adaptive scaling was off before and the bounds are in order."
  },
  {
   "property": "C117",
   "status": "partial",
   "theorems": [
    "C117_workers_follow_partial",
    "C117_workers_follow_refuted"
   ],
   "note": "False for the reason of C116: the late message of an earlier attempt brings the old size back, and everything comes to rest with it (refuted). Proved is C116 joined with C114, with the provisos of both: nothing left over of earlier requests; heartbeats handled in order; no worker left as announced since the gateway learnt of the size."
  },
  {
   "property": "C118",
   "status": "proved",
   "theorems": [
    "C118_limit"
   ],
   "note": "For limits that are not negative. Database keys are not reused across restarts."
  },
  {
   "property": "C119",
   "status": "partial",
   "theorems": [
    "C119_pods_follow_partial",
    "C119_surplus_refuted",
    "C119_lost_refuted",
    "C119_overtaken_refuted"
   ],
   "note": "At least as many pods as asked for, and no leftovers: proved. Exactly as many: false, handle_scale_down takes list(info.pending)[:delta] with a negative delta and may delete nothing (refuted). Needs that no expected creation or deletion is awaited: a pod deleted before its status said anything is awaited with nothing to wake the controller (refuted). A heartbeat overtaken by a later one brings the old size back until the next one (refuted without the hypothesis told)."
  },
  {
   "property": "C120",
   "status": "partial",
   "theorems": [
    "C120_asked",
    "C120_live_partial",
    "C120_live_refuted"
   ],
   "note": "For limits that are not negative. spec.replicas and what the controller is asked for: proved without further conditions. Live pods: proved as in C67, without controller restarts, expired expectations and requests that fail although the pod was made; refuted for restarts."
  },
  {
   "property": "C121",
   "status": "proved",
   "theorems": [
    "C121_started",
    "C121_own"
   ],
   "note": "Database keys are not reused while in use (ids_ok). The report says that the cluster runs; the proxy may lag behind (C111, C112)."
  },
  {
   "property": "C122",
   "status": "proved",
   "theorems": [
    "C122_failed_why",
    "C122_final"
   ],
   "note": "For calls that know the name of their cluster. Database keys are not reused while in use."
  },
  {
   "property": "C123",
   "status": "partial",
   "theorems": [
    "C123_ends_partial",
    "C123_returns",
    "C123_ends_refuted"
   ],
   "note": "Ends: proved for the first life of the gateway's process, with database keys that are never reused. False after a restart: a cluster restored as submitted with a known address makes every check raise TypeError (C30), and a call that waits for another cluster waits for ever (refuted). Returns a running cluster: proved for every life."
  },
  {
   "property": "C124",
   "status": "partial",
   "theorems": [
    "C124_clean_partial",
    "C124_clean_refuted"
   ],
   "note": "Proved unless a connection of the call breaks (every error the gateway sends, restarts included). If the answer to the POST is lost the client does not know the name and the cluster runs (refuted)."
  },
  {
   "property": "C125",
   "status": "partial",
   "theorems": [
    "C125_stop_partial",
    "C125_stop_refuted"
   ],
   "note": "Proved if the gateway knew of the cluster when the DELETE came in. A DELETE for a cluster that the gateway's view does not show yet is answered 204 and not carried out (routes.py 171-177); afterwards the cluster runs (refuted)."
  },
  {
   "property": "C126",
   "status": "partial",
   "theorems": [
    "C126_truthful",
    "C126_forward",
    "C126_stays_partial",
    "C126_stays_refuted"
   ],
   "note": "Truth and order are proved for all histories, restarts included. That a found cluster stays found is proved for one process; after a restart requests are served before the loop has looked at the listed objects, so a known cluster gets 404 (refuted)."
  },
  {
   "property": "C127",
   "status": "proved",
   "theorems": [
    "C127_early",
    "C127_wakes",
    "C127_wakes_deleted"
   ],
   "note": "The order of phases is C52's."
  },
  {
   "property": "C128",
   "status": "partial",
   "theorems": [
    "C128_found_partial",
    "C128_catches_up",
    "C128_found_refuted"
   ],
   "note": "Proved once the watch and the loop have caught up, which they can at any time. Before that the cluster is not found, even by GET ?wait after 20 seconds (refuted)."
  },
  {
   "property": "C129",
   "status": "partial",
   "theorems": [
    "C129_memory_partial",
    "C129_memory_refuted"
   ],
   "note": "Flags exist only for known clusters and for names that were asked for with ?wait. For names that do not exist they are never removed: any number can be left (refuted)."
  },
  {
   "property": "C130",
   "status": "proved",
   "theorems": [
    "C130_owner"
   ],
   "note": ""
  },
  {
   "property": "C131",
   "status": "partial",
   "theorems": [
    "C131_forward_partial",
    "C131_final_partial",
    "C131_forward_refuted"
   ],
   "note": "Proved for one life of the process with failures of any kind, and for any number of restarts if no transaction is rolled back after memory changed (the objects in memory are changed inside the transaction, before the commit). With such a rollback a restart brings a stopped cluster back to stopping, and a stopping one back to running (refuted)."
  },
  {
   "property": "C132",
   "status": "partial",
   "theorems": [
    "C132_settled_partial",
    "C132_restart_heals_partial",
    "C132_settled_refuted"
   ],
   "note": "Proved if calls fail before they change anything; and after a restart also if calls had raised after their commit. A stop request whose update raises after the commit is answered 500, its repetition is answered 204 (the target is already set) and nothing is stopped; a POST of this kind leaves a cluster that is never started (refuted)."
  },
  {
   "property": "C133",
   "status": "partial",
   "theorems": [
    "C133_one_operation_partial",
    "C133_start_again_partial",
    "C133_started_once_refuted"
   ],
   "note": "No overlap: proved. A cluster is started again only after its reconciler was interrupted by an exception. If both the update after a successful start and the update of the handler fail, the start is repeated: two schedulers (refuted)."
  },
  {
   "property": "C134",
   "status": "partial",
   "theorems": [
    "C134_cluster_stop_called_partial",
    "C134_state_refuted",
    "C134_worker_refuted"
   ],
   "note": "That the stop operation is called is proved for clusters. It is called with the stored state, which is not the reported one if storing failed (refuted); a worker whose start cannot be recorded stays CREATED, and when the scheduler no longer wants it, it is recorded as stopped without a stop operation (refuted)."
  },
  {
   "property": "C135",
   "status": "partial",
   "theorems": [
    "C135_worker_cap_partial",
    "C135_worker_cap_refuted"
   ],
   "note": "Proved under the conditions of C131. With a rolled back update and a restart a cluster with limit 2 has 3 workers (refuted)."
  },
  {
   "property": "C136",
   "status": "partial",
   "theorems": [
    "C136_memory_is_database_partial",
    "C136_restart_keeps_partial",
    "C136_memory_is_database_refuted"
   ],
   "note": "Proved unless a transaction is rolled back after memory changed; then memory and tables differ (refuted)."
  },
  {
   "property": "C137",
   "status": "partial",
   "theorems": [
    "C137_purge_partial",
    "C137_purge_refuted"
   ],
   "note": "Proved unless a transaction is rolled back after memory changed. A purge that is rolled back has already taken the cluster out of the indexes: every later purge raises KeyError and deletes nothing until the gateway is restarted (refuted)."
  },
  {
   "property": "C138",
   "status": "proved",
   "theorems": [
    "C138_retried",
    "C138_timer"
   ],
   "note": "For all histories and failures, restarts included."
  },
  {
   "property": "C139",
   "status": "partial",
   "theorems": [
    "C139_flags_partial",
    "C139_flags_refuted"
   ],
   "note": "Proved if calls fail before they change anything. If the update to RUNNING, or to STOPPED, raises after its commit, the flag is never set although nothing is left to do: requests that wait are not told (refuted)."
  },
  {
   "property": "C140",
   "status": "proved",
   "theorems": [
    "C140_stop_ends",
    "C140_told_ends",
    "C140_worker_ends",
    "C140_starts",
    "C140_worker_starts",
    "C140_running_up",
    "C140_runs_exist",
    "C140_healed_refuted"
   ],
   "note": "The condition on the kind of failure is needed: if the call of a stop request raises after its commit, then in a fair run without further failures the cluster never ends (C140_healed_refuted); after a restart it does."
  },
  {
   "property": "C141",
   "status": "proved",
   "theorems": [
    "C141_stops",
    "C141_cleans",
    "C141_at_rest",
    "C141_runs_exist"
   ],
   "note": "Of the secret and the pod those that the status records (C84 has what may be left otherwise)."
  },
  {
   "property": "C142",
   "status": "partial",
   "theorems": [
    "C142_starts",
    "C142_fails",
    "C142_lost",
    "C142_at_rest",
    "C142_vanished_refuted"
   ],
   "note": "Starting: for a cluster that has only been pending so far; failing: for one that has not been recorded as ended so far. Refuted for a pod that vanishes before the cluster runs: it stays pending for ever."
  },
  {
   "property": "C143",
   "status": "partial",
   "theorems": [
    "C143_attended_partial",
    "C143_reached_partial",
    "C143_lost_refuted"
   ],
   "note": "Partial: the conditions on pods are needed; refuted without the one on pods that vanish before their status says anything. Again and again, not from some moment on."
  },
  {
   "property": "C144",
   "status": "proved",
   "theorems": [
    "C144_written",
    "C144_read",
    "C144_roundtrip",
    "C144_order",
    "C144_refused"
   ],
   "note": "The calendar is defined by the day that follows each day. Other forms of text that fromisoformat reads are not modelled."
  },
  {
   "property": "C145",
   "status": "partial",
   "theorems": [
    "C145_kept",
    "C145_cause",
    "C145_silent",
    "C145_ends",
    "C145_waits",
    "C145_returns",
    "C145_backlog_refuted"
   ],
   "note": "All proved but the bound on what is kept for one request: the queue of a client that does not read grows without bound (refuted)."
  },
  {
   "property": "C146",
   "status": "proved",
   "theorems": [
    "C146_orders",
    "C146_answer",
    "C146_gateway",
    "C146_other",
    "C146_user",
    "C146_start",
    "C146_token"
   ],
   "note": "Headers arrive as they were sent; bodies are parsed JSON."
  },
  {
   "property": "C147",
   "status": "partial",
   "theorems": [
    "C147_fields",
    "C147_only",
    "C147_image",
    "C147_auth",
    "C147_hub",
    "C147_custom",
    "C147_unknown",
    "C147_starts",
    "C147_kept",
    "C147_secret",
    "C147_token",
    "C147_literal",
    "C147_extra",
    "C147_pull_refuted",
    "C147_password_refuted"
   ],
   "note": "Two parts are false: without an image name the pull secrets are dropped, and a password for simple authentication is written to the ConfigMap. toJson and json.loads are taken to be inverse."
  },
  {
   "property": "C148",
   "status": "partial",
   "theorems": [
    "C148_user",
    "C148_groups",
    "C148_confined",
    "C148_starts",
    "C148_nobody",
    "C148_unprivileged",
    "C148_unsafe",
    "C148_groups_refuted",
    "C148_root_refuted"
   ],
   "note": "Two parts are false: if setgroups fails the processes keep the gateway's groups, and a user named root gets root's rights. Set-user-ID programs are not modelled."
  },
  {
   "property": "C149",
   "status": "partial",
   "theorems": [
    "C149_released",
    "C149_ends",
    "C149_independent",
    "C149_served",
    "C149_same",
    "C149_http",
    "C149_alive_partial",
    "C149_alive_refuted",
    "C149_idle_refuted"
   ],
   "note": "Going on is false in general: runTCP goes on with a nil connection after a failed Accept, which panics, so clients that open enough connections end the process and cut everybody off (C149_alive_refuted says how many it takes); nothing ends a connection on which nothing is sent (C149_idle_refuted). C149_alive_partial gives the condition under which it does go on. The HTTP server's own connections to targets are not counted."
  },
  {
   "property": "C150",
   "status": "partial",
   "theorems": [
    "C150_api",
    "C150_dashboard",
    "C150_status",
    "C150_only",
    "C150_pods",
    "C150_address",
    "C150_watch",
    "C150_tcp",
    "C150_prefix_refuted"
   ],
   "note": "Proved for prefixes of letters, digits, dots, hyphens, underscores, tildes and slashes with a slash in front. False for other prefixes the chart accepts: a plus sign is read as a regular expression and the dashboard gets the unstripped path; without the slash in front the gateway is not served (C150_prefix_refuted). Traefik is modelled from its documentation."
  },
  {
   "property": "C151",
   "status": "partial",
   "theorems": [
    "C151_apart_partial",
    "C151_apart_refuted"
   ],
   "note": "Proved for releases that both make the role of some component (the chart's default), as the cluster-wide roles keep two releases with the same label from being installed, and for releases in one namespace. False otherwise: with rbac disabled, releases of one name in two namespaces are installed side by side and each looks at everything of the other (C151_apart_refuted). Extra labels of the configuration must leave the gateway's own labels alone. Helm is modelled from its documentation."
  },
  {
   "property": "C152",
   "status": "partial",
   "theorems": [
    "C152_allowed",
    "C152_confined",
    "C152_pods",
    "C152_disabled",
    "C152_secrets_refuted"
   ],
   "note": "All clauses proved; not true that the gateway can read only the secrets of clusters: it can read every secret of every namespace, and the proxy can list them (C152_secrets_refuted). C152_pods holds unless the extra pod configuration sets automountServiceAccountToken. With rbac disabled nothing is bound (C152_disabled). That no other requests are sent is by reading the code; what Traefik asks for is not modelled."
  },
  {
   "property": "C153",
   "status": "partial",
   "theorems": [
    "C153_own",
    "C153_start",
    "C153_stopped",
    "C153_others",
    "C153_memory",
    "C153_orphan_refuted",
    "C153_failed_refuted"
   ],
   "note": "The last sentence holds for clusters whose application id was recorded and whose application could be killed. False otherwise: an application submitted after the start timeout is never stopped by the gateway (C153_orphan_refuted); if killing fails, the cluster counts as stopped while its application runs and its address stays in memory (C153_failed_refuted). That an application answers only to its own credentials is Skein's documentation."
  },
  {
   "property": "C154",
   "status": "partial",
   "theorems": [
    "C154_template",
    "C154_missing",
    "C154_plain",
    "C154_others",
    "C154_only",
    "C154_escape",
    "C154_values",
    "C154_configured",
    "C154_arguments",
    "C154_kept_refuted",
    "C154_nested_refuted",
    "C154_port_refuted"
   ],
   "note": "False: values meant literally are not kept if they contain braces, e.g. a password (C154_kept_refuted); texts inside of lists and dicts are not formatted (C154_nested_refuted); a proxy-address that is a template for a port is taken for a host (C154_port_refuted). Fields with attributes, indices, conversions or format specifications are outside of the model (result Beyond)."
  },
  {
   "property": "C155",
   "status": "partial",
   "theorems": [
    "C155_view",
    "C155_caught_up",
    "C155_delivered",
    "C155_survives",
    "C155_numbers",
    "C155_widget",
    "C155_widget_current",
    "C155_broken_refuted",
    "C155_stale_refuted"
   ],
   "note": "The last sentence is false: after the connection broke the view never changes again (C155_broken_refuted), and what is read while the widget is being made is not shown until workers change again (C155_stale_refuted; C155_widget_current if nothing is read then). That the scheduler answers the subscription before it sends changes, and sends them in order, is distributed's code and assumed."
  },
  {
   "property": "C156",
   "status": "partial",
   "theorems": [
    "C156_valid",
    "C156_agree",
    "C156_assign",
    "C156_refused",
    "C156_entered",
    "C156_mapping",
    "C156_mapping_assign",
    "C156_mapping_enter",
    "C156_zero_refuted",
    "C156_large_refuted"
   ],
   "note": "False for a Float with a bound of zero, which its widget does not get (C156_zero_refuted), and for numbers beyond 64 bits assigned to an Integer with one bound (C156_large_refuted); proved for all others. ipywidgets' notifications and bounds and that YAML reads back what it wrote are assumed from their documentation."
  },
  {
   "property": "C157",
   "status": "partial",
   "theorems": [
    "C157_exit_partial",
    "C157_dropped",
    "C157_only",
    "C157_once",
    "C157_exit_refuted",
    "C157_shutdown_refuted"
   ],
   "note": "False if an object is left whose Gateway() could not be made: reporting its error raises itself (its repr needs a name), and the clusters after it are not closed (C157_exit_refuted); proved without such objects. False for shutdown() after close(shutdown=False), which does nothing (C157_shutdown_refuted). Asynchronous objects are left alone at exit, as documented in the code; overlapping calls are C58."
  },
  {
   "property": "C158",
   "status": "partial",
   "theorems": [
    "C158_plain",
    "C158_options",
    "C158_same",
    "C158_raises",
    "C158_server_only",
    "C158_overridden_refuted",
    "C158_stale_refuted"
   ],
   "note": "The last sentence is false: a wrong local default makes cluster_options() raise even where a keyword argument overrides it (C158_overridden_refuted), and a local default for an option the server does not offer makes every new_cluster() without an Options object fail (C158_stale_refuted). The rest is proved."
  },
  {
   "property": "C159",
   "status": "partial",
   "theorems": [
    "C159_submit",
    "C159_new",
    "C159_class",
    "C159_agree",
    "C159_every_refuted"
   ],
   "note": "The last sentence is false for options named like an argument on the way (address, proxy_address, public_address, auth, asynchronous, loop, self, func, cluster_options, shutdown_on_close): new_cluster raises, GatewayCluster takes the value for itself, only an Options object works (C159_every_refuted). The rest is proved; the exact names are in the theorems."
  },
  {
   "property": "C160",
   "status": "partial",
   "theorems": [
    "C160_sound",
    "C160_set",
    "C160_read",
    "C160_raised",
    "C160_update",
    "C160_update_refuted",
    "C160_attribute_refuted"
   ],
   "note": "False for update, which keeps the assignments before the one that raises (C160_update says exactly which, C160_update_refuted), and for options named like an attribute of the class, e.g. values, which can be set but not read by attribute (C160_attribute_refuted). The rest is proved."
  }
 ]
}
