{"id": "C01", "title": "Work queue: one consumer per item", "statement": "An item returned by `WorkQueue.get` is not returned by any other `get` until `task_done` has been called for it, even if it is put again meanwhile.", "quantifier": "every finite sequence of put / put_after / timer firing / get / wake-up / cancellation / task_done / close calls, any number of producers and consumers, any items", "why_tests_cant": "holds over all interleavings of an unbounded number of producers and consumers; a test samples a few schedules", "anchors": ["dask-gateway-server/dask_gateway_server/workqueue.py: WorkQueue._put, _get, get, task_done"]}
{"id": "C02", "title": "Work queue: no put is lost", "statement": "After any history, every item that was put since it was last handed out is still pending: either it is in line for the next `get`, or it is being processed and will be put in line by its `task_done`. Nothing that was never put is handed out.", "quantifier": "every operation history and every item", "why_tests_cant": "a lost item needs one particular ordering of put, get and task_done; the claim is about all of them", "anchors": ["dask-gateway-server/dask_gateway_server/workqueue.py: WorkQueue._put, _get, task_done, is_empty"]}
{"id": "C03", "title": "Work queue: duplicate puts merge and order is first-in first-out", "statement": "An item is in line at most once, so consecutive puts before a `get` cause exactly one hand-out; distinct items are handed out in the order in which they entered the line; the number of hand-outs of an item never exceeds the number of times it was put.", "quantifier": "every operation history", "why_tests_cant": "counts over unbounded histories", "anchors": ["dask-gateway-server/dask_gateway_server/workqueue.py: WorkQueue._put, _get, task_done"]}
{"id": "C04", "title": "Work queue: a delayed put keeps the earliest deadline", "statement": "If several delayed puts of the same item are outstanding, the item is put at the earliest requested time, exactly one timer is live, and a request with zero or negative delay puts it immediately; a later request never postpones an earlier one.", "quantifier": "every sequence of put_after/put_backoff calls with arbitrary times and delays, every clock reading", "why_tests_cant": "all interleavings of clock and calls", "anchors": ["dask-gateway-server/dask_gateway_server/workqueue.py: WorkQueue.put_after, _put_delayed, put_backoff"]}
{"id": "C05", "title": "Backoff delays are doubled, capped and reset", "statement": "The n-th consecutive backoff of an item is min(base*2^(n-1), max); the delays never decrease until `reset`, after which they restart at min(base, max); items do not influence each other.", "quantifier": "every base and max delay >= 0, every sequence of failures and resets on any items", "why_tests_cant": "unbounded exponent and history", "anchors": ["dask-gateway-server/dask_gateway_server/workqueue.py: Backoff.backoff, reset, failures"]}
{"id": "C06", "title": "Work queue: a waiting consumer is woken whenever there is work", "statement": "Whenever items are in line, either no consumer is blocked in `get`, or at least one consumer has been woken and is about to take an item; in particular items never sit in line with all consumers asleep - also when some blocked consumers are cancelled.", "quantifier": "every history including cancellation of blocked consumers at any moment", "why_tests_cant": "lost wake-ups depend on one precise interleaving of put, cancel and resume", "anchors": ["dask-gateway-server/dask_gateway_server/workqueue.py: WorkQueue._wakeup_next, get, put, task_done"]}
{"id": "C07", "title": "Work queue: closing releases every consumer", "statement": "Once the queue is closed no `get` ever returns an item again: each `get` call that runs afterwards, including those blocked at the time of the close, raises WorkQueueClosed.", "quantifier": "every history and every moment of the close", "why_tests_cant": "the blocked consumers at the close can be in any state", "anchors": ["dask-gateway-server/dask_gateway_server/workqueue.py: WorkQueue.close, _wakeup_all, get"]}
{"id": "C08", "title": "Proxy route table behaves as a finite map", "statement": "After any sequence of route additions and deletions, the proxy's HTTP table holds for each path exactly the target of the last addition not followed by a deletion of the same path (paths compared up to one leading and one trailing slash); changing one path never changes what another path maps to.", "quantifier": "every sequence of Put/Delete on arbitrary path strings", "why_tests_cant": "arbitrary strings and histories over a shared-prefix tree", "anchors": ["dask-gateway-server/dask-gateway-proxy/pkg/router/router.go: normalizePath, getSegment, Put, Delete"]}
{"id": "C09", "title": "Proxy picks the longest matching route", "statement": "A request path is routed to the registered route that is its longest prefix on whole path segments; it is rejected exactly when no registered route is such a prefix; the yes/no query agrees with the lookup.", "quantifier": "every table reachable by Put/Delete and every request path", "why_tests_cant": "quantifies over all tables and all strings", "anchors": ["dask-gateway-server/dask-gateway-proxy/pkg/router/router.go: Match, HasMatch"]}
{"id": "C10", "title": "Proxy forwards exactly the rest of the path", "statement": "On a match, the path handed to the backend is the request path with exactly the matched route (and its slash) removed: concatenating the removed part and the rest gives the request path, and the slices never go out of range (no crash on any path).", "quantifier": "every table and request path, including empty, only-slashes and doubled-slash paths", "why_tests_cant": "slice arithmetic over arbitrary strings; the crashing input is the one nobody thought of", "anchors": ["dask-gateway-server/dask-gateway-proxy/pkg/router/router.go: Match, normalizePath", "dask-gateway-server/dask-gateway-proxy/cmd/dask-gateway-proxy/main.go: singleJoiningSlash, ServeHTTP"]}
{"id": "C11", "title": "Deleted routes leave no garbage", "statement": "The tree the proxy keeps depends only on the routes currently registered: after any history it contains no branch without a route below it, and removing everything gives the initial empty tree.", "quantifier": "every sequence of Put/Delete", "why_tests_cant": "accumulation appears only over long histories", "anchors": ["dask-gateway-server/dask-gateway-proxy/pkg/router/router.go: Delete, isLeaf"]}
{"id": "C12", "title": "Route watch is gap-free", "statement": "A watcher that asks for changes after id n receives exactly the changes with ids n+1, n+2, ... in order without gap or repetition, or is told its position is too old; ids are consecutive from 1.", "quantifier": "every sequence of route changes, any non-negative retention limit, any n not greater than the newest id", "why_tests_cant": "depends on the offset arithmetic of a truncated log for all lengths", "anchors": ["dask-gateway-server/dask_gateway_server/proxy/core.py: Proxy._append_event, _events_after, routes_handler"]}
{"id": "C13", "title": "Proxy table converges to the gateway's table", "statement": "However fetches, watch reconnections, disconnects and route changes interleave, once the proxy has applied everything up to the newest id its table equals the gateway's; at every moment it equals the table the gateway had at the last id the proxy has seen.", "quantifier": "every interleaving of gateway changes with proxy fetch/watch/deliver/disconnect steps, one gateway lifetime", "why_tests_cant": "unbounded interleavings of two processes", "anchors": ["dask-gateway-server/dask_gateway_server/proxy/core.py: Proxy.routes_handler, _append_event", "dask-gateway-server/dask-gateway-proxy/cmd/dask-gateway-proxy/main.go: watchRoutes, UpdateFromRoutes, UpdateFromEvents"]}
{"id": "C14", "title": "Route event log is bounded", "statement": "The number of retained route events never exceeds the configured maximum.", "quantifier": "every configured maximum and every number of route changes", "why_tests_cant": "long histories for every configuration value", "anchors": ["dask-gateway-server/dask_gateway_server/proxy/core.py: Proxy._append_event, max_events"]}
{"id": "C15", "title": "Proxy recovers after the gateway restarts", "statement": "When the gateway process restarts (its route ids start over) a proxy that keeps its last id re-synchronises: it never keeps serving a route the new gateway does not have once it has reconnected.", "quantifier": "every number of changes before and after the restart", "why_tests_cant": "needs the id counters of two incarnations to relate in every possible way", "anchors": ["dask-gateway-server/dask_gateway_server/proxy/core.py: Proxy.setup, _events_after, routes_handler", "dask-gateway-server/dask-gateway-proxy/cmd/dask-gateway-proxy/main.go: watchRoutes"]}
{"id": "C16", "title": "TLS passthrough does not alter the byte stream", "statement": "After the proxy has inspected the start of a connection to find the server name, reading the wrapped connection yields exactly the bytes the client sent, in order, each once, whatever the sizes of the reads and of the network chunks; end of stream is reported only after all bytes.", "quantifier": "every byte stream, every chunking of it, every sequence of read sizes", "why_tests_cant": "all chunkings and read sizes", "anchors": ["dask-gateway-server/dask-gateway-proxy/pkg/sni/sni.go: ReadSNI, wrapPeeked, peekedTCPConn.Read"]}
{"id": "C17", "title": "Scheduler connections are routed by server name only", "statement": "A connection is spliced to a scheduler only if it is TLS and its server name is the gateway prefix followed by a name in the SNI table; the peer is that table entry. Everything else goes to the HTTP side (if shared) or is closed; no connection reaches a scheduler not named by it.", "quantifier": "every first record (any length and content), every routing table", "why_tests_cant": "arbitrary bytes and record sizes, including records longer than the peek buffer", "anchors": ["dask-gateway-server/dask-gateway-proxy/pkg/sni/sni.go: ReadSNI", "dask-gateway-server/dask-gateway-proxy/cmd/dask-gateway-proxy/main.go: handleConnection", "dask-gateway/dask_gateway/comm.py: parse_gateway_address, GatewayConnector.connect"]}
{"id": "C18", "title": "Cluster status only moves forward", "statement": "The status of a cluster as reported by the API only moves along pending, running, stopping, stopped/failed (steps may be skipped); it never moves back.", "quantifier": "every interleaving of user requests, heartbeats, timers, backend calls finishing in any order or failing, and gateway restarts at any point", "why_tests_cant": "unbounded interleavings of concurrent reconcilers with crash points", "anchors": ["dask-gateway-server/dask_gateway_server/backends/db_base.py: Cluster._status_map, reconcile_cluster, _cluster_to_*, update_cluster, on_cluster_heartbeat, stop_cluster"]}
{"id": "C19", "title": "Stopped is final", "statement": "Once a cluster is recorded as stopped or failed, that record never changes again, no scheduler or worker is started for it afterwards, and its heartbeats have no effect. The same holds for workers.", "quantifier": "every interleaving and every continuation after the terminal record", "why_tests_cant": "late events after shutdown can arrive in any order", "anchors": ["dask-gateway-server/dask_gateway_server/backends/db_base.py: reconcile_cluster, reconcile_worker, check_clusters_loop, on_cluster_heartbeat, _check_timeouts"]}
{"id": "C20", "title": "No cluster is left half-closed", "statement": "Whenever the gateway is idle (nothing in line, nothing being processed), every cluster that was asked to stop, or that failed, has reached stopped/failed, and so have all its workers; a cluster that was created and not stopped has been submitted.", "quantifier": "every reachable state in which no reconcile work is pending", "why_tests_cant": "a stuck state is a missed re-queue in one of many orderings", "anchors": ["dask-gateway-server/dask_gateway_server/backends/db_base.py: reconcile_cluster, reconcile_worker, is_cluster_ready_to_close, reconciler_loop"]}
{"id": "C21", "title": "Worker cap is respected", "statement": "A cluster with a configured maximum of m workers never has more than m workers that are not already on their way out, and the requested size recorded for it never exceeds m, whatever its scheduler's heartbeats ask for.", "quantifier": "every sequence of heartbeats with arbitrary (also hostile) contents, every interleaving", "why_tests_cant": "adversarial messages in any order", "anchors": ["dask-gateway-server/dask_gateway_server/backends/db_base.py: on_cluster_heartbeat, _check_cluster_scale, active_workers, cluster_max_workers"]}
{"id": "C22", "title": "Workers converge to the requested number", "statement": "Whenever the gateway is idle, a running cluster has exactly as many active workers as last requested, or more only because its running workers are to be retired by its scheduler; a worker that died has been replaced unless the scheduler announced its departure.", "quantifier": "every reachable idle state", "why_tests_cant": "depends on the interleaving of failures, heartbeats and scaling", "anchors": ["dask-gateway-server/dask_gateway_server/backends/db_base.py: _check_cluster_scale, on_cluster_heartbeat, reconcile_cluster"]}
{"id": "C23", "title": "Nothing started is left running", "statement": "For every backend start operation (scheduler or worker) that was begun, the matching stop operation is called before the record becomes stopped/failed, with the last state the start operation reported.", "quantifier": "every interleaving, failures of any backend operation at any yield point, restarts at any point", "why_tests_cant": "all crash points and failure points", "anchors": ["dask-gateway-server/dask_gateway_server/backends/db_base.py: _cluster_to_submitted, _cluster_to_stopped, _cluster_to_closing, _worker_to_submitted, _worker_to_stopped"]}
{"id": "C24", "title": "Each scheduler and worker is started at most once", "statement": "Within one gateway lifetime the backend's start operation is begun at most once per cluster and at most once per worker, and never runs concurrently with the stop operation of the same cluster or worker.", "quantifier": "every interleaving", "why_tests_cant": "needs queue exclusivity and status updates combined over all schedules", "anchors": ["dask-gateway-server/dask_gateway_server/backends/db_base.py: reconciler_loop, reconcile_cluster, reconcile_worker", "dask-gateway-server/dask_gateway_server/workqueue.py"]}
{"id": "C25", "title": "Routes exist only for live clusters", "statement": "The proxy table contains scheduler/dashboard routes for a cluster only while it is running (they are added after it reported its addresses and removed before it becomes stopped/failed), and contains no others besides the gateway's own.", "quantifier": "every interleaving and restart point", "why_tests_cant": "all orderings of connect, stop and failure", "anchors": ["dask-gateway-server/dask_gateway_server/backends/db_base.py: _check_cluster_proxied, _cluster_to_closing, _cluster_to_stopped, setup", "dask-gateway-server/dask_gateway_server/proxy/core.py: add_route, remove_route"]}
{"id": "C26", "title": "Only old finished records are purged", "statement": "The periodic purge removes exactly the clusters (with their workers) that finished longer ago than the configured age; every other record stays, and all lookup indexes (id, name, user) agree afterwards.", "quantifier": "every database content, age and clock reading", "why_tests_cant": "all contents and boundary times", "anchors": ["dask-gateway-server/dask_gateway_server/backends/db_base.py: DataManager.cleanup_expired, cleanup loop"]}
{"id": "C27", "title": "A restart loses nothing", "statement": "At every point the records kept in memory equal those in the database, so a gateway that crashes and restarts at any moment resumes with the same clusters, workers, users and statuses, re-queues every unfinished one, and queues no finished one.", "quantifier": "every reachable state as crash point", "why_tests_cant": "crash at every instruction boundary", "anchors": ["dask-gateway-server/dask_gateway_server/backends/db_base.py: DataManager.load_database_state, create_*, update_*, setup"]}
{"id": "C28", "title": "Stop requests are idempotent and win over scaling", "statement": "Stopping an unknown or already stopping/stopped cluster changes nothing; after a successful stop request the cluster never reports running again and gets no additional workers.", "quantifier": "every state and later history", "why_tests_cant": "repeats and races in any order", "anchors": ["dask-gateway-server/dask_gateway_server/backends/db_base.py: stop_cluster, on_cluster_heartbeat, _check_cluster_scale"]}
{"id": "C29", "title": "Cluster status can always be reported", "statement": "Getting or listing clusters never fails for a stored cluster: every reachable pair of recorded and desired state has a public status.", "quantifier": "every reachable state", "why_tests_cant": "the missing pair appears only in one race", "anchors": ["dask-gateway-server/dask_gateway_server/backends/db_base.py: Cluster._status_map, status, to_model, check_clusters_loop"]}
{"id": "C30", "title": "Silent clusters are detected, live ones are not", "statement": "A running cluster whose last heartbeat is older than the configured timeout is marked failed at the next check; one heard from within the timeout is never marked failed by this check; a cluster or worker that has been starting longer than its start timeout is failed, and not earlier.", "quantifier": "every clock reading, every set of clusters and workers", "why_tests_cant": "boundary times for all states", "anchors": ["dask-gateway-server/dask_gateway_server/backends/db_base.py: _check_timeouts, on_cluster_heartbeat"]}
{"id": "C31", "title": "Worker start failure limit", "statement": "A cluster is failed when the number of consecutive worker start failures reaches the configured limit, the count restarts when a worker connects, and is not otherwise changed; the default limit never fails a cluster before it has had that many failures.", "quantifier": "every sequence of worker starts, failures and heartbeats", "why_tests_cant": "long mixed histories", "anchors": ["dask-gateway-server/dask_gateway_server/backends/db_base.py: _worker_to_submitted, worker_start_failure_limit, on_cluster_heartbeat, _check_timeouts"]}
{"id": "C32", "title": "Heartbeats are always accepted", "statement": "Every well-formed heartbeat of a live cluster's scheduler that reports only workers the gateway created for it is processed without an internal error, in any order and with any repetition.", "quantifier": "every reachable gateway state and every such message", "why_tests_cant": "the combination of worker states and message sets is unbounded", "anchors": ["dask-gateway-server/dask_gateway_server/backends/db_base.py: on_cluster_heartbeat", "dask-gateway/dask_gateway/scheduler_preload.py: GatewaySchedulerService.heartbeat"]}
{"id": "C33", "title": "Session cookies identify exactly the user who logged in", "statement": "A cookie yields a user only if it was issued to that user after a successful authentication; two users never share a cookie, and a user has at most one live cookie; the cache never raises.", "quantifier": "every sequence of logins, cookie uses and expiries, provided fresh cookies are distinct", "why_tests_cant": "all histories of two mutually inverse maps", "anchors": ["dask-gateway-server/dask_gateway_server/auth.py: UserCache.get, put, Authenticator.authenticate_and_handle"]}
{"id": "C34", "title": "Sessions expire", "statement": "A cookie older than the configured lifetime is never accepted, and a cookie handed to a user is valid for the full lifetime from the moment of that login.", "quantifier": "every history and clock", "why_tests_cant": "timing of every login relative to earlier ones", "anchors": ["dask-gateway-server/dask_gateway_server/auth.py: UserCache.get, put"]}
{"id": "C35", "title": "Users are isolated from each other", "statement": "A request of user u can read, stop, scale or adapt only clusters owned by u; clusters of other users behave as forbidden and are never listed; unauthenticated requests reach no handler.", "quantifier": "every request, every set of clusters and users", "why_tests_cant": "all combinations of user, cluster and route", "anchors": ["dask-gateway-server/dask_gateway_server/routes.py: all handlers", "dask-gateway-server/dask_gateway_server/models.py: User.has_permissions", "dask-gateway-server/dask_gateway_server/backends/db_base.py: list_clusters"]}
{"id": "C36", "title": "A cluster's token is good only for its own heartbeat and its own deletion", "statement": "The heartbeat endpoint accepts a request only with the token of the cluster named in the URL; another cluster's token or a user credential is refused, and a cluster token gives no access to anything else except deleting this very cluster.", "quantifier": "every token, cluster and endpoint", "why_tests_cant": "all combinations", "anchors": ["dask-gateway-server/dask_gateway_server/routes.py: token_authenticated, api_handler, handle_heartbeat"]}
{"id": "C37", "title": "TLS credentials are disclosed only for running clusters on request", "statement": "A cluster report contains the TLS certificate and key only in the full report of a running cluster; listings never contain them.", "quantifier": "every cluster record and flag combination", "why_tests_cant": "all combinations", "anchors": ["dask-gateway-server/dask_gateway_server/models.py: Cluster.to_dict", "dask-gateway-server/dask_gateway_server/routes.py: list_clusters, get_cluster"]}
{"id": "C38", "title": "JupyterHub identities do not collide", "statement": "Two different (kind, name) identities returned by the hub (user vs service) never map to the same gateway user name, and only tokens with the required scope are accepted.", "quantifier": "every pair of identities and scope lists", "why_tests_cant": "arbitrary strings", "anchors": ["dask-gateway-server/dask_gateway_server/auth.py: JupyterHubAuthenticator.authenticate, _token_for"]}
{"id": "C39", "title": "Scaling requests are validated and clamped", "statement": "A scale request is answered with the number actually forwarded: min(requested, configured maximum) and a warning exactly if it was reduced; an adapt request forwards minimum <= maximum <= configured maximum; malformed requests are refused and forward nothing.", "quantifier": "every JSON body and every configured maximum", "why_tests_cant": "all bodies", "anchors": ["dask-gateway-server/dask_gateway_server/routes.py: scale_cluster, adapt_cluster"]}
{"id": "C40", "title": "Option parsing yields exactly the declared, valid options", "statement": "Parsing a user's cluster options either rejects the request or returns a value for every declared option and nothing else, each value accepted by its declaration; omitted options get their defaults; parsing the result again gives the same result.", "quantifier": "every set of declared options and every JSON request", "why_tests_cant": "all declarations and requests", "anchors": ["dask-gateway-server/dask_gateway_server/options.py: Options.parse_options, Field.validate"]}
{"id": "C41", "title": "Client and server agree on options", "statement": "A value accepted by the client-side option object is accepted by the server and kept unchanged, and an option set built from the server's specification starts with values the server accepts.", "quantifier": "every option declaration and value", "why_tests_cant": "two independent implementations over all values", "anchors": ["dask-gateway-server/dask_gateway_server/options.py", "dask-gateway/dask_gateway/options.py: Field._from_spec, validate"]}
{"id": "C42", "title": "Numeric options stay within bounds", "statement": "An accepted numeric option value lies between the declared minimum and maximum.", "quantifier": "every declaration and every number (including NaN and infinities)", "why_tests_cant": "special values", "anchors": ["dask-gateway-server/dask_gateway_server/options.py: Number.validate, Integer.validate, Float.validate"]}
{"id": "C43", "title": "Options are turned into configuration deterministically", "statement": "The configuration of a new cluster takes each declared option under its target name (or the handler's result) and the operator's defaults elsewhere; a user option that is not declared can never change the configuration.", "quantifier": "every declaration and request", "why_tests_cant": "all requests", "anchors": ["dask-gateway-server/dask_gateway_server/options.py: transform_options, get_configuration", "dask-gateway-server/dask_gateway_server/backends/base.py: process_cluster_options"]}
{"id": "C44", "title": "Resource limits bound the worker count", "statement": "With cluster_max_memory/cores/workers set, the computed worker limit n is the largest number such that the scheduler plus n workers fit in every limit (0 if the scheduler alone does not fit).", "quantifier": "every configuration with positive worker sizes", "why_tests_cant": "integer division boundaries for all values", "anchors": ["dask-gateway-server/dask_gateway_server/backends/base.py: ClusterConfig._worker_limit_from_resources, cluster_max_workers"]}
{"id": "C45", "title": "Memory sizes sent to the batch system are never smaller than configured", "statement": "The memory string given to PBS/Slurm denotes at least the configured number of bytes and exceeds it by less than ten percent (plus one unit).", "quantifier": "every byte count", "why_tests_cant": "rounding over all sizes", "anchors": ["dask-gateway-server/dask_gateway_server/backends/jobqueue/pbs.py: qsub_format_memory", "dask-gateway-server/dask_gateway_server/backends/jobqueue/slurm.py: slurm_format_memory", "dask-gateway-server/dask_gateway_server/traitlets.py: MemoryLimit.validate"]}
{"id": "C46", "title": "API rate limit is enforced", "statement": "In any time window of length t at most burst + rate*t operations pass the limiter, no operation is delayed longer than necessary to keep that bound, and operations pass in order of arrival.", "quantifier": "every arrival sequence and window", "why_tests_cant": "all arrival patterns", "anchors": ["dask-gateway-server/dask_gateway_server/utils.py: RateLimiter._delay, acquire"]}
{"id": "C47", "title": "The LRU cache is bounded and coherent", "statement": "The cache never holds more than its maximum number of entries, returns the last value put for a key that it still holds, never a value for another key, and evicts only the least recently read or added entry.", "quantifier": "every operation sequence, any maximum >= 0", "why_tests_cant": "all histories", "anchors": ["dask-gateway-server/dask_gateway_server/utils.py: LRUCache"]}
{"id": "C48", "title": "Extra pod configuration is merged, not replaced", "statement": "Merging extra configuration keeps every part of the base object that the extra object does not mention, overrides scalars by the extra value, appends lists, merges nested objects the same way, and changes neither input.", "quantifier": "every pair of JSON objects", "why_tests_cant": "arbitrary nesting", "anchors": ["dask-gateway-server/dask_gateway_server/backends/kubernetes/utils.py: merge_json_objects", "dask-gateway-server/dask_gateway_server/backends/kubernetes/controller.py: make_pod"]}
{"id": "C49", "title": "Kubernetes: pod bookkeeping is consistent", "statement": "The controller's pending/running/succeeded/failed sets of a cluster are disjoint subsets of the pods seen and not deleted, a pod is in the set of its last reported phase, and each pod is counted once as created and once as deleted, in any order or repetition of watch events.", "quantifier": "every sequence of pod events", "why_tests_cant": "watch events may repeat and interleave arbitrarily", "anchors": ["dask-gateway-server/dask_gateway_server/backends/kubernetes/controller.py: ClusterInfo, on_pod_update, on_pod_delete"]}
{"id": "C50", "title": "Kubernetes: scaling acts on exactly the surplus or deficit", "statement": "When fewer workers exist than requested exactly the missing number is created; when more exist, pending pods are deleted only as far as the surplus requires, so that never fewer than the requested number remain.", "quantifier": "every pod bookkeeping state and requested size", "why_tests_cant": "all set sizes", "anchors": ["dask-gateway-server/dask_gateway_server/backends/kubernetes/controller.py: handle_running_cluster, handle_scale_up, handle_scale_down, batch_create_pods"]}
{"id": "C51", "title": "Kubernetes: batched creation never overshoots and accounts for failures", "statement": "Creating n pods submits at most n requests, stops after the first batch with a failure, and afterwards the number of creations still expected equals the number of successful requests not yet observed; a deletion is expected only of a pod that is still known and whose deletion was accepted.", "quantifier": "every n, every pattern of API failures", "why_tests_cant": "all failure patterns", "anchors": ["dask-gateway-server/dask_gateway_server/backends/kubernetes/controller.py: batch_create_pods, create_pod, delete_pod"]}
{"id": "C52", "title": "Kubernetes: cluster phase only moves forward", "statement": "The recorded phase of a cluster goes Pending, Running, Stopped/Failed and never back; a terminal phase is never overwritten and has a completion time; Running is recorded only after credentials, scheduler pod, service and both routes are recorded.", "quantifier": "every sequence of reconciliations with arbitrary informer contents and API outcomes", "why_tests_cant": "all interleavings of watch state and API failures", "anchors": ["dask-gateway-server/dask_gateway_server/backends/kubernetes/controller.py: handle_cluster, handle_pending_cluster, handle_running_cluster, reconcile_cluster"]}
{"id": "C53", "title": "Kubernetes: the watch cache equals the server's objects", "statement": "After a relist the informer's cache holds exactly the listed objects and handlers have been told of every disappeared and every present one; after any prefix of the watch events it holds exactly the objects of the list with these events applied.", "quantifier": "every list, event sequence, handler failure and relist point", "why_tests_cant": "unbounded event histories with failing handlers", "anchors": ["dask-gateway-server/dask_gateway_server/backends/kubernetes/utils.py: Informer.handle_initial, handle, run"]}
{"id": "C54", "title": "Kubernetes: the gateway's view follows the cluster objects", "statement": "After processing the pending updates, the gateway lists for each user exactly the clusters existing in the watch cache with that user name, and serves addresses only for running ones.", "quantifier": "every sequence of object changes and syncs", "why_tests_cant": "all interleavings", "anchors": ["dask-gateway-server/dask_gateway_server/backends/kubernetes/backend.py: sync_cluster, list_clusters, get_cluster"]}
{"id": "C55", "title": "Adaptive scaling stays within bounds and does not flap", "statement": "With adaptive scaling on, the requested size is always within [minimum, maximum]; it shrinks only to a size that was sufficient during the whole look-back window, and grows at once.", "quantifier": "every sequence of load suggestions", "why_tests_cant": "all load histories", "anchors": ["dask-gateway/dask_gateway/scheduler_preload.py: GatewaySchedulerService.adapt, adapt_loop, scale"]}
{"id": "C56", "title": "Scheduler's worker report is consistent", "statement": "In each heartbeat the sets of active, closing and closed workers are disjoint and every worker that ever connected is in one of them until the gateway has acknowledged it; a reconnecting worker is no longer reported closed.", "quantifier": "every sequence of joins, departures and heartbeats with delivery failures", "why_tests_cant": "all interleavings with failures", "anchors": ["dask-gateway/dask_gateway/scheduler_preload.py: worker_added, worker_removed, heartbeat"]}
{"id": "C57", "title": "Idle shutdown only when idle", "statement": "A scheduler shuts its cluster down for idleness only if it had no work at every check during a period of at least the idle timeout; any activity restarts the period.", "quantifier": "every sequence of checks and activity", "why_tests_cant": "all histories", "anchors": ["dask-gateway/dask_gateway/scheduler_preload.py: check_idle"]}
{"id": "C58", "title": "Closing the client object stops the cluster", "statement": "A GatewayCluster that was created with shutdown_on_close and is closed at any moment asks the gateway to stop the cluster it submitted, and never stops a cluster when shutdown is off.", "quantifier": "every moment of the close relative to submission, start-up and connection", "why_tests_cant": "close may race with every await of the start", "anchors": ["dask-gateway/dask_gateway/client.py: GatewayCluster._start_async, _stop_internal, _stop_async"]}
{"id": "C59", "title": "YARN: a worker check result belongs to the worker asked about", "statement": "The list returned by the worker check has one entry per worker asked about, in the same order, saying whether that worker's container is alive.", "quantifier": "every list of workers spread over any number of clusters", "why_tests_cant": "needs workers of several clusters in arbitrary order", "anchors": ["dask-gateway-server/dask_gateway_server/backends/yarn.py: do_check_workers, do_check_clusters", "dask-gateway-server/dask_gateway_server/backends/db_base.py: check_workers_loop", "dask-gateway-server/dask_gateway_server/backends/jobqueue/base.py: _do_check"]}
{"id": "C60", "title": "Stored credentials are read back unchanged", "statement": "The TLS certificate, key and token read from the database after a restart equal those generated for the cluster, with or without encryption.", "quantifier": "every certificate/key pair produced by the key generator and every token", "why_tests_cant": "arbitrary bytes around the separator", "anchors": ["dask-gateway-server/dask_gateway_server/backends/db_base.py: encode_tls_credentials, decode_tls_credentials, encrypt, decrypt, _normalize_encrypt_key"]}
{"id": "C61", "title": "Forwarding to a scheduler is retried and then fails the cluster", "statement": "A scale/adapt message is sent at most the configured number of times (but at least once), is delivered at most once successfully, and the cluster is failed exactly when every attempt failed; messages are sent only to clusters that are running.", "quantifier": "every pattern of delivery failures", "why_tests_cant": "all failure patterns", "anchors": ["dask-gateway-server/dask_gateway_server/backends/base.py: forward_message_to_scheduler", "dask-gateway-server/dask_gateway_server/routes.py: scale_cluster, adapt_cluster"]}
{"id": "C62", "title": "Waiters are woken exactly when the record says so", "statement": "At every moment, a call waiting for a cluster to start is released iff the cluster is running, closing or finished; a call waiting for shutdown is released iff the cluster is finished. This also holds after a restart.", "quantifier": "every history of the gateway, including crashes and restarts", "why_tests_cant": "flags and records are updated in different places and re-created at restart", "anchors": ["dask-gateway-server/dask_gateway_server/backends/db_base.py: Cluster, _cluster_to_running, _cluster_to_closing, _cluster_to_stopped, load_database_state"]}
{"id": "C63", "title": "Half-closed connections stay usable", "statement": "When one peer of a proxied scheduler connection has finished sending, everything the other peer sends afterwards is still delivered to it; a direction that ends without the other side having finished is complete.", "quantifier": "every interleaving of sends, ends of stream and copy steps in both directions", "why_tests_cant": "needs half-closed connections and all interleavings of two goroutines", "anchors": ["dask-gateway-server/dask-gateway-proxy/cmd/dask-gateway-proxy/main.go: handleConnection, proxyConnections"]}
{"id": "C64", "title": "Every client naming a registered cluster reaches it", "statement": "A TLS connection whose ClientHello names a cluster in the SNI table is connected to that cluster's scheduler if the scheduler accepts connections, whatever the size of the hello and however it is split on the network.", "quantifier": "every hello size and chunking", "why_tests_cant": "large hello records are not produced by the test client", "anchors": ["dask-gateway-server/dask-gateway-proxy/pkg/sni/sni.go: ReadSNI", "dask-gateway-server/dask-gateway-proxy/cmd/dask-gateway-proxy/main.go: handleConnection"]}
{"id": "C65", "title": "The simple authenticator's password cannot be avoided", "statement": "When a password is configured, a request is accepted exactly if its Basic credentials decode to name:password with this password, and it then acts as this name; user names never contain a colon.", "quantifier": "every header, every decoding function and password", "why_tests_cant": "all headers", "anchors": ["dask-gateway-server/dask_gateway_server/auth.py: SimpleAuthenticator.authenticate"]}
{"id": "C66", "title": "A cluster's worker maximum never exceeds what its resource limits allow", "statement": "Whatever the operator's configuration and the user's options, the cluster_max_workers of the resulting configuration is at most the number of workers that fit in its cluster_max_memory and cluster_max_cores.", "quantifier": "every combination of operator settings and option overrides", "why_tests_cant": "order of trait validation over all combinations of settings", "anchors": ["dask-gateway-server/dask_gateway_server/backends/base.py: ClusterConfig._validate_cluster_max_workers, _update_cluster_max_workers, get_cluster_config"]}
{"id": "C67", "title": "Kubernetes: never more worker pods than the largest size asked for", "statement": "At any moment at most as many worker pods of a cluster exist that have not come to their end as the largest size ever requested for it.", "quantifier": "every interleaving of reconciliations, API answers, pod status changes and delayed or repeated watch events", "why_tests_cant": "depends on delayed watch events and the bookkeeping of expected events", "anchors": ["dask-gateway-server/dask_gateway_server/backends/kubernetes/controller.py: ClusterInfo, handle_running_cluster, handle_scale_up, batch_create_pods, on_pod_update"]}
{"id": "C68", "title": "Kubernetes: a lost scheduler ends its cluster", "statement": "When the scheduler pod of an active cluster has ended or is gone, the next reconciliation whose API calls succeed records the cluster as Failed.", "quantifier": "every cluster state and every pod state", "why_tests_cant": "depends on pod states a test cluster does not produce (evictions, deletions while pending)", "anchors": ["dask-gateway-server/dask_gateway_server/backends/kubernetes/controller.py: handle_pending_cluster, handle_running_cluster, get_container_state"]}
{"id": "C69", "title": "Kubernetes: cluster records are deleted only after their retention time", "statement": "The controller deletes a cluster object only if it was recorded as Stopped or Failed with a completion time at least completed_cluster_max_age seconds in the past.", "quantifier": "every sequence of object changes, reconciliations, restarts and cleanup runs", "why_tests_cant": "needs all interleavings of cleanup and reconciliation", "anchors": ["dask-gateway-server/dask_gateway_server/backends/kubernetes/controller.py: handle_cluster, cleanup_expired_cluster_records_loop, on_cluster_delete"]}
{"id": "C70", "title": "A changed size is reported to the gateway promptly", "statement": "When the requested size changes, the scheduler sends it to the gateway in a heartbeat without waiting for the regular period; when more workers than requested connect, or one is lost, it does so within seconds.", "quantifier": "every interleaving of size changes, worker changes, timers and heartbeats in flight", "why_tests_cant": "a lost wake-up needs a request in the middle of a heartbeat", "anchors": ["dask-gateway/dask_gateway/scheduler_preload.py: Waiter, heartbeat_loop, _scale"]}
{"id": "C71", "title": "An explicit size ends adaptive scaling", "statement": "After scale(n) was called the requested size is n until another request, whatever adaptive scaling was doing.", "quantifier": "every moment of the call relative to the adaptive loop", "why_tests_cant": "cancellation may arrive at each await", "anchors": ["dask-gateway/dask_gateway/scheduler_preload.py: scale, adapt, adapt_loop", "dask-gateway/dask_gateway/utils.py: cancel_task"]}
{"id": "C72", "title": "An idle cluster is shut down", "statement": "Once a cluster has been idle for longer than the idle timeout, every check asks the gateway to stop it until that succeeded.", "quantifier": "every sequence of checks, activity and failing requests", "why_tests_cant": "needs failing requests at arbitrary moments", "anchors": ["dask-gateway/dask_gateway/scheduler_preload.py: check_idle"]}
{"id": "C73", "title": "Batch systems and local processes: a check fails exactly what is not alive", "statement": "The status check of the PBS, Slurm and local backends asks about exactly the jobs of the objects given, answers once per object in the same order, and makes an object fail exactly if its job is not listed in an active state (or its process does not run).", "quantifier": "every list of objects, every output of the batch system in its documented form", "why_tests_cant": "needs arbitrary outputs, repeated rows, missing rows and objects without a job", "anchors": ["dask-gateway-server/dask_gateway_server/backends/jobqueue/base.py: _do_check, check_jobs", "dask-gateway-server/dask_gateway_server/backends/jobqueue/slurm.py: parse_job_states", "dask-gateway-server/dask_gateway_server/backends/jobqueue/pbs.py: parse_job_states", "dask-gateway-server/dask_gateway_server/backends/local.py: _check_status", "dask-gateway-server/dask_gateway_server/backends/db_base.py: check_clusters_loop, check_workers_loop"]}
{"id": "C74", "title": "In-process backend: running schedulers and workers pass the status check", "statement": "The status check of the in-process backend makes a scheduler or worker fail exactly if it does not exist or was closed.", "quantifier": "every set of objects in every state", "why_tests_cant": "the existing tests never let a check run while something is starting", "anchors": ["dask-gateway-server/dask_gateway_server/backends/inprocess.py: _check_status, do_check_clusters, do_check_workers"]}
{"id": "C75", "title": "Encryption keys mean what the operator wrote", "statement": "A key given as 32 bytes, in base64 or in URL-safe base64 denotes the same key in each form, different keys stay different, anything else is refused; a list in the environment variable yields its keys in order whatever blanks surround them; a database outside of memory is never used without a key.", "quantifier": "every key and every list of keys in every notation", "why_tests_cant": "quantifies over all keys, alphabets and malformed inputs of a lenient base64 decoder, and the normalization is applied twice", "anchors": ["dask-gateway-server/dask_gateway_server/backends/db_base.py: _normalize_encrypt_key, _db_encrypt_keys_default, _db_encrypt_keys_validate"]}
{"id": "C76", "title": "A reported status means what it says", "statement": "A cluster reported as pending is not to end and not yet reachable; one reported as running has a known scheduler address and those waiting for it were woken; one reported as stopping is to end; one reported as stopped or failed was to end with that outcome, has a recorded end, is not reachable, the backend was asked to stop its scheduler, each of its workers has finished and those waiting for its end were woken.", "quantifier": "every cluster in every history of requests, heartbeats, failures, checks and restarts", "why_tests_cant": "a status combines two stored fields that are written by different tasks at different moments", "anchors": ["dask-gateway-server/dask_gateway_server/backends/db_base.py: Cluster._status_map, model_status, reconcile_cluster"]}
{"id": "C77", "title": "A heartbeat changes exactly what it says", "statement": "After an accepted heartbeat of a live cluster the workers named as active or closing count as connected, those named as closing are expected to end, those named as closed end as stopped if that was expected and as failed otherwise, and every other worker is unchanged except that workers still being started may be dropped as surplus; finished workers never change.", "quantifier": "every message, naming any workers in any combination, in every reachable state", "why_tests_cant": "quantifies over all messages and all worker states", "anchors": ["dask-gateway-server/dask_gateway_server/backends/db_base.py: on_cluster_heartbeat"]}
{"id": "C78", "title": "Listings are exact", "statement": "A listing of clusters contains each cluster at most once and contains exactly the clusters that belong to the given user (if one is given) and have one of the given statuses (by default: those that are not to end), each with its current status.", "quantifier": "every user, every list of statuses, every reachable state", "why_tests_cant": "the listing is built from two indices that are updated by different tasks", "anchors": ["dask-gateway-server/dask_gateway_server/backends/db_base.py: DataManager.list_clusters, model_status, is_active"]}
{"id": "C79", "title": "Clusters end only for a reason", "statement": "A live cluster is told to end only because somebody asked for it, it did not start or was not heard of in time, the backend reported it as gone, its start failed, too many of its worker starts failed, or the gateway shuts down and is to take its clusters with it; and the outcome is stopped only if that was asked for.", "quantifier": "every event in every history", "why_tests_cant": "a claim about all executions: no other event ends a cluster", "anchors": ["dask-gateway-server/dask_gateway_server/backends/db_base.py: stop_cluster, check_timeouts_loop, check_clusters_loop, _cluster_to_submitted, reconcile_cluster, cleanup"]}
{"id": "C80", "title": "Workers end only for a reason", "statement": "A worker is told to end only because its scheduler reports it as closed, it is surplus while being started, it was not heard of in time, the backend reported it as gone, its start failed, or its cluster ends; once it is connected only its scheduler's report, a check of it made while connected, or the end of the cluster end it.", "quantifier": "every event in every history", "why_tests_cant": "races between heartbeats, checks in flight and start operations in flight", "anchors": ["dask-gateway-server/dask_gateway_server/backends/db_base.py: on_cluster_heartbeat, check_timeouts_loop, check_workers_loop, _worker_to_submitted, reconcile_worker"]}
{"id": "C81", "title": "What has to end does end", "statement": "After a stop request for a cluster (or any other decision that a cluster or a worker has to end), the cluster and all of its workers finish and the proxy forgets the cluster, for good, whatever else is requested and however the backend's operations fail, provided every backend operation ends or raises some day.", "quantifier": "every endless fair execution from every reachable state", "why_tests_cant": "liveness: no finite test can show that something always happens in the end", "anchors": ["dask-gateway-server/dask_gateway_server/backends/db_base.py: stop_cluster, reconcile_cluster, reconcile_worker, _cluster_to_closing, _cluster_to_stopped, _worker_to_stopped"]}
{"id": "C82", "title": "What was asked for is begun", "statement": "Every created cluster and worker is started or ended some day. A submitted cluster whose scheduler reports with its address is up some day: it runs, the proxy leads to it and it has the workers its scheduler asked for, unless it has to end; and every running cluster is, whatever happens to its workers.", "quantifier": "every endless fair execution from every reachable state", "why_tests_cant": "liveness under arbitrary interleavings of requests, heartbeats, reconcilers and failures", "anchors": ["dask-gateway-server/dask_gateway_server/backends/db_base.py: start_cluster, on_cluster_heartbeat, _cluster_to_submitted, _cluster_to_running, _check_cluster_scale, _worker_to_submitted"]}
{"id": "C83", "title": "A shutdown comes to an end", "statement": "A shutdown that waits for clusters to end does not wait for ever: some day they have all ended, for good, and the work queue can be closed.", "quantifier": "every endless fair execution in which a shutdown has begun, from every reachable state", "why_tests_cant": "liveness; requests and heartbeats still arrive during the shutdown", "anchors": ["dask-gateway-server/dask_gateway_server/backends/db_base.py: cleanup, stop_cluster, reconcile_cluster"]}
{"id": "C84", "title": "Kubernetes: a finished cluster leaves no scheduler behind", "statement": "Once a cluster is recorded as stopped or failed, the scheduler pod and the credentials that were created for it have been deleted.", "quantifier": "every history of runs, failing requests, restarts and stale caches", "why_tests_cant": "depends on which requests fail and on what the cache has seen when the cluster is stopped", "anchors": ["dask-gateway-server/dask_gateway_server/backends/kubernetes/controller.py:reconcile_cluster, handle_cluster, handle_pending_cluster, handle_running_cluster, cleanup_cluster_resources"]}
{"id": "C85", "title": "Processes are started with the gateway's settings", "statement": "Whatever environment variables a cluster is configured with, its scheduler and workers see the gateway's own values of the variables that name the API, the cluster, the token and the TLS files (and, on YARN, their own worker name and scheduler address), and see all other variables as configured.", "quantifier": "every backend, every configuration whose inherited variables do not include the gateway's own", "why_tests_cant": "quantifies over all configured variable sets, including ones that collide with the gateway's", "anchors": ["dask-gateway-server/dask_gateway_server/backends/db_base.py: get_env, get_scheduler_env, get_worker_env", "dask-gateway-server/dask_gateway_server/backends/local.py:get_env", "dask-gateway-server/dask_gateway_server/backends/jobqueue/base.py", "dask-gateway-server/dask_gateway_server/backends/yarn.py"]}
{"id": "C86", "title": "Batch jobs get exactly these variables and this command", "statement": "What PBS or Slurm makes of the submitted arguments and script is the configured environment and the configured command; a worker is told its own name, threads and memory limit and a scheduler where to listen.", "quantifier": "every environment, every command, every cluster", "why_tests_cant": "the values are joined with commas and blanks; only all inputs show which ones are torn apart", "anchors": ["dask-gateway-server/dask_gateway_server/backends/jobqueue/pbs.py", "dask-gateway-server/dask_gateway_server/backends/jobqueue/slurm.py", "dask-gateway-server/dask_gateway_server/backends/jobqueue/base.py"]}
{"id": "C87", "title": "Kubernetes: services lead to the cluster's scheduler only", "statement": "The service of a cluster selects the scheduler pod of that cluster and gateway and no worker and no pod of another cluster; the controller's watches see each object the gateway made, as what it is, and no object of another gateway.", "quantifier": "all gateways, namespaces, clusters and configured labels", "why_tests_cant": "quantifies over all configured extra labels and pairs of clusters", "anchors": ["dask-gateway-server/dask_gateway_server/backends/kubernetes/controller.py:make_service, make_pod, get_labels, get_cluster_key", "dask-gateway-server/dask_gateway_server/backends/kubernetes/backend.py:get_labels"]}
{"id": "C88", "title": "Kubernetes: routes lead to the named cluster only", "statement": "The dashboard path and the server name in the address that clients are given are routed to the service of that cluster, at the port where its scheduler was told to listen; no path and no server name is routed to two clusters.", "quantifier": "all namespaces and cluster names, all paths and server names", "why_tests_cant": "prefix routes: needs that no cluster's route is a prefix of another's, for all names", "anchors": ["dask-gateway-server/dask_gateway_server/backends/kubernetes/controller.py:make_ingressroute, make_ingressroutetcp, get_scheduler_command, get_worker_command", "dask-gateway-server/dask_gateway_server/models.py:Cluster.to_dict", "dask-gateway/dask_gateway/comm.py"]}
{"id": "C89", "title": "Kubernetes: a container has the cluster's settings, files and resources", "statement": "The container of a scheduler or worker pod has the gateway's environment variables, the files they name are the cluster's certificate, key and token, it runs the configured command, and it requests and is limited to the configured memory and cores, a request never exceeding its limit.", "quantifier": "all configurations, including extra pod and container settings that are merged in", "why_tests_cant": "merging arbitrary settings, and rounding of all numbers of cores", "anchors": ["dask-gateway-server/dask_gateway_server/backends/kubernetes/controller.py:make_pod, get_env, make_secret, get_scheduler_command, get_worker_command"]}
{"id": "C90", "title": "Kubernetes: nothing made for a cluster outlives it", "statement": "Once Kubernetes' garbage collector has nothing left to do, a cluster whose object is gone has no pods, secret, service or routes left; one whose scheduler pod is gone has no workers, service or routes left; and nothing is collected while its owners exist.", "quantifier": "all sets of objects", "why_tests_cant": "quantifies over all sets of objects on the server", "anchors": ["dask-gateway-server/dask_gateway_server/backends/kubernetes/controller.py:create_secret_if_not_exists, create_scheduler_pod_if_not_exists, create_service_if_not_exists, create_ingressroute_if_not_exists, create_ingressroutetcp_if_not_exists, handle_scale_up"]}
{"id": "C91", "title": "Kubernetes: heartbeats and stop requests reach their own cluster", "statement": "A heartbeat for a known cluster sets the wanted number of workers of exactly that cluster, to the number asked for unless that exceeds the cluster's limit and to the limit then; a stop request deactivates exactly that cluster unless it has ended.", "quantifier": "all namespaces, names, numbers and limits", "why_tests_cant": "for all names and numbers", "anchors": ["dask-gateway-server/dask_gateway_server/backends/kubernetes/backend.py:on_cluster_heartbeat, stop_cluster"]}
{"id": "C92", "title": "The files named in a process's environment are its cluster's credentials", "statement": "When a cluster was started, the two files that the environment of its scheduler and workers names as certificate and key exist where the process looks for them and hold exactly that cluster's certificate and key, on local processes, Slurm, PBS and YARN.", "quantifier": "all clusters, working directories, contents and file systems before the start", "why_tests_cant": "quantifies over all directory settings (relative and absolute, staged in or not) and all earlier contents of the disk", "anchors": ["dask-gateway-server/dask_gateway_server/backends/local.py:setup_working_directory, get_tls_paths", "dask-gateway-server/dask_gateway_server/backends/jobqueue/launcher.py:start", "dask-gateway-server/dask_gateway_server/backends/jobqueue/pbs.py:get_tls_paths", "dask-gateway-server/dask_gateway_server/backends/yarn.py:_build_specification"]}
{"id": "C93", "title": "A cluster's key is private, and nothing of it stays on disk", "statement": "While a cluster runs, its key file cannot be read by other users of the machine; once it has been stopped nothing of it is left on disk, whether or not its start worked; no start or stop touches the files of another cluster.", "quantifier": "all clusters, all failures of single file operations", "why_tests_cant": "a file operation can fail at any point of a start; the disk can hold anything", "anchors": ["dask-gateway-server/dask_gateway_server/backends/local.py:setup_working_directory, cleanup_working_directory, do_start_cluster, do_stop_cluster, set_file_permissions", "dask-gateway-server/dask_gateway_server/backends/jobqueue/launcher.py", "dask-gateway-server/dask_gateway_server/backends/jobqueue/base.py:do_start_cluster, do_stop_cluster"]}
{"id": "C94", "title": "A started cluster is one batch job, and stopping it ends the job", "statement": "A start that works leaves exactly one new job in the batch system, the recorded one; a start that fails leaves none; a stop cancels that job and no other.", "quantifier": "all states of the batch system and of the disk, all results of the submit and cancel commands", "why_tests_cant": "stop is retried after partial failures; needs all states such failures leave", "anchors": ["dask-gateway-server/dask_gateway_server/backends/jobqueue/launcher.py:start, stop", "dask-gateway-server/dask_gateway_server/backends/jobqueue/base.py:start_job, stop_job"]}
{"id": "C95", "title": "Local processes are stopped firmly, in bounded time, and no others", "statement": "A process is sent SIGINT, then SIGTERM, then SIGKILL, each only after it had at least the configured time to react to the one before; the whole takes at most about twice the sum of the timeouts; when the stop is reported as done the process was gone; no other process is sent signals.", "quantifier": "all timeouts and all ways in which a process (and the process id) behaves over time", "why_tests_cant": "quantifies over the moment at which the process ends and over reuse of its id", "anchors": ["dask-gateway-server/dask_gateway_server/backends/local.py:_signal, is_running, wait_is_shutdown, stop_process"]}
{"id": "C96", "title": "The client connects to the host, port and cluster that its address means", "statement": "A client given the address of a gateway (and possibly a proxy port or address) connects to the host and port these mean, with the standard port of the scheme if none is given, and asks for the cluster by its name; the cluster object connects to the same place; dashboard links are the public address followed by the dashboard's route.", "quantifier": "all addresses, with or without user, port, path and trailing slashes; all proxy settings; all cluster names", "why_tests_cant": "an address is parsed, printed, extended by a name and parsed again elsewhere; only all inputs show which ones do not survive that", "anchors": ["dask-gateway/dask_gateway/client.py:Gateway.__init__, ClusterReport._from_json, GatewayCluster", "dask-gateway/dask_gateway/comm.py:parse_gateway_address, GatewayConnector"]}
{"id": "C97", "title": "A call of the client takes effect at most once, and its result says whether it did", "statement": "A call that is refused for lack of authentication and sent again takes effect only once; a call that returns was carried out by the gateway and returns its answer; a call that raises did nothing, unless the error is about the cluster (409).", "quantifier": "all histories of the gateway's sessions, all calls, all answers of the backend, all expiries of sessions in between", "why_tests_cant": "needs client and server together, with other requests at any point in between", "anchors": ["dask-gateway/dask_gateway/client.py:Gateway._request", "dask-gateway/dask_gateway/auth.py", "dask-gateway-server/dask_gateway_server/auth.py", "dask-gateway-server/dask_gateway_server/routes.py"]}
{"id": "C98", "title": "A call acts as the user that the client's credentials stand for", "statement": "Whatever sessions have expired or begun, a call made with valid credentials (a name and password, a JupyterHub token, a Kerberos ticket) is carried out for the user these stand for, never fails for lack of authentication, and the caller sees the gateway's answer.", "quantifier": "all names, passwords, tokens and tickets, all histories of sessions", "why_tests_cant": "a name passes through base64, a header, a split and a session cache shared with all other users", "anchors": ["dask-gateway/dask_gateway/client.py:Gateway._request", "dask-gateway/dask_gateway/auth.py:BasicAuth, KerberosAuth, JupyterHubAuth", "dask-gateway-server/dask_gateway_server/auth.py:SimpleAuthenticator, KerberosAuthenticator, JupyterHubAuthenticator, UserCache"]}
{"id": "C99", "title": "On Kubernetes no shortage of workers is overlooked", "statement": "When the controller has nothing left to do for a running cluster (no reconciliation going on or asked for, every pod change delivered), at least as many worker pods exist and wait or run as the cluster was scaled to, and no pod that has ended is left.", "quantifier": "all histories of pod changes, failed requests, repeated listings and reconciliations", "why_tests_cant": "a change can arrive at any point of a running reconciliation; that no wake-up gets lost is a statement about all interleavings", "anchors": ["dask-gateway-server/dask_gateway_server/backends/kubernetes/controller.py:ClusterInfo, on_pod_update, on_pod_delete, handle_running_cluster, handle_scale_up, handle_scale_down", "dask-gateway-server/dask_gateway_server/backends/kubernetes/utils.py:Informer"]}
{"id": "C100", "title": "The gateway keeps exactly one proxy process running, and takes it along when it ends", "statement": "There is never more than one proxy process of a gateway; one that has ended is started again within the status period, or with growing pauses if that fails; when the gateway ends, in order or not, the proxy is told to end too, and no other is started.", "quantifier": "all histories of proxy exits, failed starts, shutdowns and crashes, all status periods", "why_tests_cant": "tests run one proxy that does not die; the pauses after failures take minutes", "anchors": ["dask-gateway-server/dask_gateway_server/proxy/core.py:start_proxy_process, monitor_proxy_process, setup, cleanup", "dask-gateway-server/dask-gateway-proxy/cmd/dask-gateway-proxy/main.go:awaitShutdown"]}
{"id": "C101", "title": "The routing table is given to the gateway's own proxy and to nobody else", "statement": "A request for the routing table is answered if and only if it carries the gateway's token; the proxy that the gateway started always carries it.", "quantifier": "all tokens, all headers", "why_tests_cant": "the token passes through the environment and an HTTP header; only all tokens show which ones do not survive that", "anchors": ["dask-gateway-server/dask_gateway_server/proxy/core.py:routes_handler, _api_token_default, get_start_env", "dask-gateway-server/dask-gateway-proxy/cmd/dask-gateway-proxy/main.go:getRoutingTable, watchRoutingEvents"]}
{"id": "C102", "title": "The proxy process runs with the settings of the gateway's configuration", "statement": "Whatever is configured, the process that the gateway starts listens at the configured addresses, watches the gateway's url with the gateway's token, uses the configured certificate, key and log level, and knows that it is a child; a certificate without key, or a key without certificate, is refused.", "quantifier": "all configurations, including values that look like options", "why_tests_cant": "a Python list of words is read by Go's flag parser; only all values show that none is taken for something else", "anchors": ["dask-gateway-server/dask_gateway_server/proxy/core.py:get_start_command, get_start_env", "dask-gateway-server/dask-gateway-proxy/cmd/dask-gateway-proxy/main.go:main, run", "dask-gateway-server/dask-gateway-proxy/internal/logging/logging.go:ParseLevel"]}
{"id": "C103", "title": "Proxy, gateway, schedulers and workers agree on addresses", "statement": "An accepted address is host:port with a fixed port; the proxy is told the port where the gateway listens, schedulers and workers are told the port, scheme and prefix where the proxy listens; without a separate address for schedulers the proxy uses one socket for everything, and it can always listen at the addresses the gateway accepted.", "quantifier": "all configured addresses, prefixes, host names and free ports", "why_tests_cant": "addresses are normalized several times in several places, and ports may be chosen at random each time", "anchors": ["dask-gateway-server/dask_gateway_server/utils.py:normalize_address", "dask-gateway-server/dask_gateway_server/proxy/core.py:Proxy", "dask-gateway-server/dask_gateway_server/backends/db_base.py:_api_url_default", "dask-gateway-server/dask_gateway_server/app.py:_default_address, _validate_address", "dask-gateway-server/dask-gateway-proxy/cmd/dask-gateway-proxy/main.go:run"]}
{"id": "C104", "title": "A proxy started by hand from the gateway's configuration serves the gateway", "statement": "With externally_managed set, a proxy started with `dask-gateway-server proxy` from the same configuration file watches the gateway's url and is let in.", "quantifier": "all configurations, two processes with their own environments, host names and random values", "why_tests_cant": "two processes compute the same defaults separately; tests set every value", "anchors": ["dask-gateway-server/dask_gateway_server/proxy/core.py:Proxy, ProxyApp.start", "dask-gateway-server/dask_gateway_server/app.py:_default_address"]}
{"id": "C105", "title": "Changes of routes arrive at the proxy as they were sent, whole or not at all", "statement": "Whatever text the names and targets are, and as long as no line exceeds 64 KiB, the proxy reads from the gateway's stream exactly the changes that were sent, in order; if the stream breaks off at any byte, it has got an unbroken sequence of whole messages from the start and no part of one.", "quantifier": "all lists of messages with any text, all points at which the stream may break", "why_tests_cant": "the text is escaped by Python's encoder, cut into lines and decoded by Go's; a stream can break at any byte", "anchors": ["dask-gateway-server/dask_gateway_server/proxy/core.py:routes_handler", "dask-gateway-server/dask-gateway-proxy/cmd/dask-gateway-proxy/main.go:evIter, watchRoutingEvents, EventsMsg"]}
{"id": "C106", "title": "A proxy that has missed changes catches up when it is left alone", "statement": "A proxy that lags behind, and whose requests are answered from then on, comes to serve the routes that the gateway has; in particular, what one user's cluster reports cannot keep the routes of other clusters from the proxy.", "quantifier": "all histories of changes, breaks and requests, all sizes of names and targets", "why_tests_cant": "the limit on lines is only met by very long targets or very large logs", "anchors": ["dask-gateway-server/dask_gateway_server/proxy/core.py:routes_handler, _append_event", "dask-gateway-server/dask-gateway-proxy/cmd/dask-gateway-proxy/main.go:evIter, watchRoutes"]}
{"id": "C107", "title": "The backend is used only between its setup and its cleanup", "statement": "No operation of the backend (starting or stopping a cluster) is called before the backend has been set up or after it has been cleaned up; so a restart of the gateway does not fail clusters that were to be started, and does not forget applications that were to be stopped.", "quantifier": "all histories of starts, failures, signals, requests and turns of the reconcilers", "why_tests_cant": "the reconcilers run beside main; the window is open only while do_setup waits for somebody else", "anchors": ["dask-gateway-server/dask_gateway_server/app.py:setup, cleanup", "dask-gateway-server/dask_gateway_server/backends/db_base.py:setup, cleanup, reconcile_cluster", "dask-gateway-server/dask_gateway_server/backends/yarn.py:do_setup, do_cleanup, do_start_cluster, do_stop_cluster"]}
{"id": "C108", "title": "A gateway that does not get to serve leaves the clusters of an earlier one alone", "statement": "If the gateway fails to start, the clusters in its database that run and are to run keep running and keep their records; in general a running cluster is stopped only if somebody asks for it, or the gateway is told to end and is configured to stop clusters then.", "quantifier": "all histories, all contents of the database", "why_tests_cant": "a start can fail at nine places, and main's cleanup runs after each of them", "anchors": ["dask-gateway-server/dask_gateway_server/app.py:setup, cleanup, main", "dask-gateway-server/dask_gateway_server/backends/db_base.py:setup, cleanup"]}
{"id": "C109", "title": "The gateway process says how it ended, and leaves nothing behind", "statement": "Exit code 1 means that it never served, 0 that it was told to end; if it says that it stopped, its tasks, sessions, sockets and the proxy process are gone and, if so configured, all clusters are closed; once it is ending, it can end. Its proxy process does not outlive it.", "quantifier": "all histories, all backends", "why_tests_cant": "signals and failures can come at any instruction of setup and cleanup", "anchors": ["dask-gateway-server/dask_gateway_server/app.py:setup, cleanup, start, main", "dask-gateway-server/dask_gateway_server/utils.py:run_main", "dask-gateway-server/dask_gateway_server/backends/db_base.py:cleanup", "dask-gateway-server/dask_gateway_server/backends/yarn.py:do_cleanup"]}
{"id": "C110", "title": "The proxy sends nobody to another cluster", "statement": "A TLS connection that the proxy passes on names exactly one cluster, and goes to an address that this cluster's own scheduler reported. An HTTP request is refused, or goes to the gateway, or goes to a dashboard address reported by the scheduler of the one cluster its path names. Nothing outside the configured prefix is served. This holds at every moment, also while routes are out of date, after restarts of gateway or proxy and lost connections.", "quantifier": "all histories of gateway, proxy, clients and failures of the link between them; all names, addresses, records and paths", "why_tests_cant": "the path from a heartbeat to a spliced connection goes through two processes, a database, an event log and two tables; a mix-up needs a rare interleaving", "anchors": ["dask-gateway-server/dask_gateway_server/backends/db_base.py:_check_cluster_proxied, _cluster_to_stopped, on_cluster_heartbeat", "dask-gateway-server/dask_gateway_server/proxy/core.py:add_route, remove_route, routes_handler", "dask-gateway-server/dask-gateway-proxy/cmd/dask-gateway-proxy/main.go:handleConnection, ServeHTTP, processMessage"]}
{"id": "C111", "title": "A running cluster is reached through the proxy, a stopped one is not", "statement": "When the gateway is at rest and the proxy has seen its newest change, a connection naming a running cluster is passed on to the address its scheduler reported, a request below its path goes to its dashboard, a connection naming a cluster that is gone is closed, and all other requests below the prefix go to the gateway; whichever of the two processes was started first.", "quantifier": "all histories, all clusters, records and requests", "why_tests_cant": "stale routes survive only particular orders of restart, stop and reconnection", "anchors": ["dask-gateway-server/dask_gateway_server/backends/db_base.py:_check_cluster_proxied, _cluster_to_stopped, load_database_state", "dask-gateway-server/dask_gateway_server/proxy/core.py:setup, add_route, remove_route", "dask-gateway-server/dask-gateway-proxy/cmd/dask-gateway-proxy/main.go:watchRoutes, handleConnection, ServeHTTP"]}
{"id": "C112", "title": "The proxy catches up with the gateway", "statement": "From every state, if messages between proxy and gateway are delivered, the proxy comes to have seen every change, without anything else happening in the gateway; a new proxy process has after its first answer; and a connected proxy with nothing left to send or read has.", "quantifier": "all histories in which the proxy was started with or after the gateway process", "why_tests_cant": "needs every position of the proxy's loop and every state of the gateway's queues", "anchors": ["dask-gateway-server/dask_gateway_server/proxy/core.py:routes_handler, _append_event", "dask-gateway-server/dask-gateway-proxy/cmd/dask-gateway-proxy/main.go:watchRoutes, fetchRoutingTable, watchRoutingEvents"]}
{"id": "C113", "title": "A scheduler is not turned away by its gateway", "statement": "Each heartbeat that a cluster's own scheduler sends is accepted: what it says about workers connected, closing and closed never makes the gateway's checks fail (AssertionError, status 500), whatever workers were started, connected, lost, retired, and whatever heartbeats or answers were lost.", "quantifier": "all histories of gateway, schedulers, workers and the messages between them", "why_tests_cant": "needs each interleaving of worker arrivals, heartbeats in flight, lost answers and the gateway's own worker table", "anchors": ["dask-gateway-server/dask_gateway_server/backends/db_base.py:on_cluster_heartbeat", "dask-gateway/dask_gateway/scheduler_preload.py:heartbeat, add_worker, remove_worker, send_heartbeat"]}
{"id": "C114", "title": "At rest, a cluster has the workers that were asked for", "statement": "When the gateway has nothing to do, and the scheduler of a running cluster has told it everything and has no more workers connected than it should, exactly as many workers as were asked for (at most the limit) are connected or being started, and no other worker is still wanted.", "quantifier": "all histories of gateway, schedulers, workers and the messages between them", "why_tests_cant": "the number travels from the client through the scheduler's heartbeat into the gateway's table and back as workers; rest is reached through unboundedly many orders of events", "anchors": ["dask-gateway-server/dask_gateway_server/backends/db_base.py:on_cluster_heartbeat, reconcile_cluster, _cluster_reconcile_running, _worker_to_stopped", "dask-gateway/dask_gateway/scheduler_preload.py:heartbeat, scale, maybe_retire_workers"]}
{"id": "C115", "title": "The gateway knows of the workers that the scheduler lets go", "statement": "When the scheduler retires a worker, the gateway has recorded before that this worker's end is expected (so it is neither replaced nor counted as a failure), or the worker or cluster was ending anyway; and this remains so in every later state, whatever messages are lost or overtake each other.", "quantifier": "all histories of gateway, schedulers, workers and the messages between them", "why_tests_cant": "concerns the order of effects in two processes under loss and reordering of messages", "anchors": ["dask-gateway-server/dask_gateway_server/backends/db_base.py:on_cluster_heartbeat", "dask-gateway/dask_gateway/scheduler_preload.py:heartbeat, maybe_retire_workers"]}
{"id": "C116", "title": "A request for a size that was answered has been carried out", "statement": "When scale(k), adapt(minimum, maximum) or adapt(active=False) for a cluster is answered without an error, all earlier requests for it were answered, and no later one is made, then from then on the scheduler works for exactly k workers (or the cluster's limit) with adaptive scaling off; or adapts within these bounds (cut to the limit), its size being within them from the first turn of the loop; or does not adapt.", "quantifier": "all histories of requests, attempts and retries, messages to the scheduler, turns of the adaptive loop, and everything else gateway, schedulers and workers do", "why_tests_cant": "attempts that timed out may still be carried out later; needs each order of delivery, retry and loop turn", "anchors": ["dask-gateway-server/dask_gateway_server/routes.py:scale_cluster, adapt_cluster", "dask-gateway-server/dask_gateway_server/backends/base.py:forward_message_to_scheduler", "dask-gateway/dask_gateway/scheduler_preload.py:CommHandler.post, scale, _scale, adapt, adapt_loop"]}
{"id": "C117", "title": "The workers follow a request that was answered", "statement": "After scale(k) was answered as above, whenever the gateway has nothing to do and the scheduler has told it everything and has no more workers than it should, the cluster has exactly min(k, limit) wanted workers, each of them connected or being started.", "quantifier": "all histories of requests, messages, gateway, schedulers and workers", "why_tests_cant": "the effect of one HTTP request across three programs and unboundedly many events", "anchors": ["dask-gateway-server/dask_gateway_server/routes.py:scale_cluster", "dask-gateway-server/dask_gateway_server/backends/db_base.py:on_cluster_heartbeat, reconcile_cluster", "dask-gateway/dask_gateway/scheduler_preload.py:CommHandler.post, scale, heartbeat"]}
{"id": "C118", "title": "The worker limit of a cluster binds its scheduler", "statement": "In no reachable state does the scheduler of a cluster with cluster_max_workers = m work for more than m workers, whatever scale and adapt requests were made, in whatever order their messages arrive or are repeated, and whatever sizes the adaptive loop computes.", "quantifier": "all histories of requests, messages, turns of the adaptive loop, gateway, schedulers and workers", "why_tests_cant": "universal over request values, orders of arrival, and targets", "anchors": ["dask-gateway-server/dask_gateway_server/routes.py:scale_cluster, adapt_cluster", "dask-gateway/dask_gateway/scheduler_preload.py:scale, _scale, adapt, adapt_loop"]}
{"id": "C119", "title": "On Kubernetes the worker pods follow the scheduler's size", "statement": "When the size of a running cluster on Kubernetes was reported by a heartbeat that led to a patch of the cluster object, no other heartbeat was handled after it and the size has not changed since, and the controller has seen everything and has nothing to do, then there are exactly as many worker pods as the scheduler works for (or as the limit allows), and no ended pod is left over.", "quantifier": "all histories of size changes, heartbeats (lost, delayed, failing at the gateway), versions of the object, watch events, pods that start, fail and vanish, failing requests, and restarts of the controller", "why_tests_cant": "gateway, API server, informers, work queue and controller each act in their own time; needs every interleaving", "anchors": ["dask-gateway-server/dask_gateway_server/backends/kubernetes/backend.py:on_cluster_heartbeat", "dask-gateway-server/dask_gateway_server/backends/kubernetes/controller.py:on_cluster_update, reconciler_loop, handle_running_cluster, handle_scale_up, handle_scale_down", "dask-gateway/dask_gateway/scheduler_preload.py:heartbeat"]}
{"id": "C120", "title": "On Kubernetes the worker limit binds the pods", "statement": "For a cluster with cluster_max_workers = m on Kubernetes, spec.replicas never exceeds m and the controller is never asked for more, whatever counts the scheduler reports; there are never more than m live worker pods.", "quantifier": "all histories as before", "why_tests_cant": "universal over reported counts and interleavings", "anchors": ["dask-gateway-server/dask_gateway_server/backends/kubernetes/backend.py:on_cluster_heartbeat", "dask-gateway-server/dask_gateway_server/backends/kubernetes/controller.py:handle_running_cluster, batch_create_pods"]}
{"id": "C121", "title": "new_cluster() and connect() return a running cluster of the caller", "statement": "When new_cluster() or connect() returns, the cluster it hands over belongs to the caller, was running with a known scheduler address while the call was made, and the report carries everything needed to connect: name, address, TLS credentials, and the dashboard link iff there is a dashboard. new_cluster() hands over the cluster that its own request created, and no two calls of new_cluster() ever hand over the same cluster.", "quantifier": "all interleavings of any number of calls of any users with everything that happens to the gateway, including failing requests and restarts", "why_tests_cant": "needs every interleaving of polling clients, 20-second waits at the gateway and state changes", "anchors": ["dask-gateway/dask_gateway/client.py:_start_async, _wait_for_start, _cluster_report", "dask-gateway-server/dask_gateway_server/backends/db_base.py:get_cluster, to_model", "dask-gateway-server/dask_gateway_server/models.py:to_dict"]}
{"id": "C122", "title": "A failed new_cluster() or connect() says why", "statement": "When a call for a cluster raises, its error tells the truth: GatewayClusterError, the cluster had failed or stopped; ValueError, the gateway knew no such cluster; another client error only from connect() to a cluster of somebody else; a server error only for a cluster that had ended otherwise than it was told to; anything else, the connection or the gateway broke. After GatewayClusterError the cluster never runs and nothing is started for it, whatever happens later.", "quantifier": "all interleavings as before", "why_tests_cant": "universal over histories, and over everything that may happen afterwards", "anchors": ["dask-gateway/dask_gateway/client.py:_request, _wait_for_start", "dask-gateway-server/dask_gateway_server/routes.py:get_cluster", "dask-gateway-server/dask_gateway_server/backends/db_base.py:get_cluster"]}
{"id": "C123", "title": "new_cluster() and connect() do not wait for ever", "statement": "Every call of new_cluster() or connect() ends some day: if the cluster never comes up the gateway gives it up and the call raises. If the cluster runs from some moment on and no connection breaks, the call returns it.", "quantifier": "all endless fair runs: reconcilers and checks get their turns, backend operations end, requests are answered or fail", "why_tests_cant": "liveness over endless interleavings", "anchors": ["dask-gateway/dask_gateway/client.py:_wait_for_start", "dask-gateway-server/dask_gateway_server/backends/db_base.py:get_cluster, _check_timeouts, reconciler_loop"]}
{"id": "C124", "title": "A failed new_cluster() leaves no cluster behind", "statement": "When new_cluster() with shutdown_on_close raises, then either it made no cluster at all, or the cluster it made has been told to end and is not reported as pending or running.", "quantifier": "all interleavings as before, all errors", "why_tests_cant": "universal over histories and points of failure", "anchors": ["dask-gateway/dask_gateway/client.py:_start_internal, _start_async, _stop_internal", "dask-gateway-server/dask_gateway_server/routes.py:create_cluster, delete_cluster"]}
{"id": "C125", "title": "On Kubernetes a confirmed stop stops the cluster", "statement": "After the gateway has answered a DELETE for a cluster with 204, the cluster is ending and stays so: its record is deleted, or says that it is stopped or failed, or tells the controller to end it (spec.active is false).", "quantifier": "all interleavings of any number of requests with the watch, the loop that updates the gateway's view, the API server and the controller; lost answers; restarts", "why_tests_cant": "the gateway acts on a view that lags behind the API server; needs every interleaving", "anchors": ["dask-gateway-server/dask_gateway_server/routes.py:delete_cluster", "dask-gateway-server/dask_gateway_server/backends/kubernetes/backend.py:stop_cluster, sync_cluster"]}
{"id": "C126", "title": "On Kubernetes the gateway tells its users the truth about their clusters, and never takes it back", "statement": "A cluster is reported only to a request of its owner, with a user, status, addresses and stop time that its record had at some time. Of two reports on the same cluster the second is never behind the first (pending, then running, then stopped or failed), even if the gateway started again in between. A cluster that was found once is found until its record is deleted.", "quantifier": "all interleavings as before", "why_tests_cant": "universal over histories with a lagging cache, a half-finished update that waits for a secret, and restarts", "anchors": ["dask-gateway-server/dask_gateway_server/routes.py:get_cluster", "dask-gateway-server/dask_gateway_server/backends/kubernetes/backend.py:get_cluster, sync_cluster, sync_clusters_loop", "dask-gateway-server/dask_gateway_server/backends/kubernetes/utils.py:Informer"]}
{"id": "C127", "title": "On Kubernetes waiting for a cluster ends when it is up, and not before", "statement": "GET ?wait is answered before its 20 seconds are over only if the cluster is no longer pending or its record was deleted; and as soon as the gateway knows this, every request that waits for the cluster can be answered: no wake-up is missed.", "quantifier": "all interleavings as before, any number of waiting requests", "why_tests_cant": "races between a request that starts to wait and the update that wakes it", "anchors": ["dask-gateway-server/dask_gateway_server/backends/kubernetes/backend.py:get_cluster, sync_cluster (cluster_waiters)", "dask-gateway-server/dask_gateway_server/utils.py:Flag"]}
{"id": "C128", "title": "On Kubernetes a created cluster is found", "statement": "Once a POST was answered with a cluster's name, the owner's GET finds the cluster as long as it exists, and shows it as it is.", "quantifier": "all interleavings as before", "why_tests_cant": "the gateway's view lags behind", "anchors": ["dask-gateway-server/dask_gateway_server/routes.py:create_cluster, get_cluster", "dask-gateway-server/dask_gateway_server/backends/kubernetes/backend.py:start_cluster, get_cluster"]}
{"id": "C129", "title": "On Kubernetes requests leave nothing behind in the gateway", "statement": "What the gateway keeps for waiting requests is bounded by the clusters it knows: when no request is under way there is at most one Flag per known cluster.", "quantifier": "all histories of requests", "why_tests_cant": "growth over unboundedly many requests", "anchors": ["dask-gateway-server/dask_gateway_server/backends/kubernetes/backend.py:get_cluster (cluster_waiters), sync_cluster"]}
{"id": "C130", "title": "On Kubernetes clusters belong to who made them", "statement": "Every version of a cluster's record names the user whose POST created it, and it is told to end only by a DELETE of this user or one with the cluster's own token.", "quantifier": "all interleavings of requests of any users", "why_tests_cant": "universal over users and interleavings", "anchors": ["dask-gateway-server/dask_gateway_server/routes.py:delete_cluster", "dask-gateway-server/dask_gateway_server/backends/kubernetes/backend.py:make_cluster_object, stop_cluster"]}
{"id": "C131", "title": "With failing database calls, the reported status still only moves forward", "statement": "Whichever database calls fail, the status a user sees of a cluster goes from pending to running to stopping to stopped or failed, never back; a finished cluster keeps its status and stop time and nothing of it is started again.", "quantifier": "all histories of requests, heartbeats, timers, backend operations and restarts, in which every database call may fail: before it changed anything, after the objects in memory changed and with the transaction rolled back, or after its commit", "why_tests_cant": "needs every subset of failing calls in every interleaving", "anchors": ["dask-gateway-server/dask_gateway_server/backends/db_base.py:reconcile_cluster, reconciler_loop, update_cluster", "dask-gateway-server/dask_gateway_server/models.py:ClusterStatus"]}
{"id": "C132", "title": "With failing database calls, what was asked still happens", "statement": "When nothing is in line, nothing is running and no retry is pending, every cluster that was told to end has ended with all its workers, and every other one has been submitted, although database calls failed on the way.", "quantifier": "all histories of requests, heartbeats, timers, backend operations and restarts, in which every database call may fail: before it changed anything, after the objects in memory changed and with the transaction rolled back, or after its commit", "why_tests_cant": "the state after arbitrarily many failures and retries", "anchors": ["dask-gateway-server/dask_gateway_server/backends/db_base.py:reconciler_loop (put_backoff), stop_cluster, start_cluster", "dask-gateway-server/dask_gateway_server/workqueue.py"]}
{"id": "C133", "title": "With failing database calls, backend operations on the same object do not overlap and are not repeated without need", "statement": "At any moment at most one start or stop operation runs for one cluster or worker; in one life of the gateway a cluster is started at most once.", "quantifier": "all histories of requests, heartbeats, timers, backend operations and restarts, in which every database call may fail: before it changed anything, after the objects in memory changed and with the transaction rolled back, or after its commit", "why_tests_cant": "needs all interleavings of reconcilers and failures", "anchors": ["dask-gateway-server/dask_gateway_server/backends/db_base.py:reconciler_loop, _cluster_to_submitted", "dask-gateway-server/dask_gateway_server/workqueue.py"]}
{"id": "C134", "title": "With failing database calls, what was started is stopped", "statement": "A cluster is reported as finished only after its stop operation was called, and it is not started after that; the stop operation is given the state that the start operation reported last; every worker that was started and is recorded as finished was stopped, or its cluster was.", "quantifier": "all histories of requests, heartbeats, timers, backend operations and restarts, in which every database call may fail: before it changed anything, after the objects in memory changed and with the transaction rolled back, or after its commit", "why_tests_cant": "relates the record to the whole history of operations", "anchors": ["dask-gateway-server/dask_gateway_server/backends/db_base.py:_cluster_to_submitted, _cluster_to_stopped, _worker_to_submitted, _worker_to_stopped"]}
{"id": "C135", "title": "With failing database calls, a cluster never has more workers than its limit", "statement": "The number of workers of a cluster that are not told to end, and the requested number, stay within the limit the cluster was created with.", "quantifier": "all histories of requests, heartbeats, timers, backend operations and restarts, in which every database call may fail: before it changed anything, after the objects in memory changed and with the transaction rolled back, or after its commit", "why_tests_cant": "as before", "anchors": ["dask-gateway-server/dask_gateway_server/backends/db_base.py:on_cluster_heartbeat, _check_cluster_scale, create_worker"]}
{"id": "C136", "title": "With failing database calls, the gateway's memory and its database still agree", "statement": "Whatever calls failed, the clusters and workers in memory are exactly those in the tables, with equal fields; a restart brings back every one of them unchanged.", "quantifier": "all histories of requests, heartbeats, timers, backend operations and restarts, in which every database call may fail: before it changed anything, after the objects in memory changed and with the transaction rolled back, or after its commit", "why_tests_cant": "as before", "anchors": ["dask-gateway-server/dask_gateway_server/backends/db_base.py:DataManager"]}
{"id": "C137", "title": "With failing database calls, a purge removes what has expired or changes nothing", "statement": "After the periodic purge, whether its database calls failed or not, the expired clusters are gone from memory and tables, and all others are untouched; or nothing has changed and the failure is logged.", "quantifier": "all histories of requests, heartbeats, timers, backend operations and restarts, in which every database call may fail: before it changed anything, after the objects in memory changed and with the transaction rolled back, or after its commit", "why_tests_cant": "as before", "anchors": ["dask-gateway-server/dask_gateway_server/backends/db_base.py:cleanup_expired, cleanup_db_loop"]}
{"id": "C138", "title": "Work that was interrupted by an exception is tried again", "statement": "When the reconciliation of a cluster or worker ends with an exception, the item is in line again or has a timer that fires within the longest delay; when the timer fires, the item is in line or being worked on.", "quantifier": "all histories of requests, heartbeats, timers, backend operations and restarts, in which every database call may fail: before it changed anything, after the objects in memory changed and with the transaction rolled back, or after its commit", "why_tests_cant": "as before", "anchors": ["dask-gateway-server/dask_gateway_server/backends/db_base.py:reconciler_loop", "dask-gateway-server/dask_gateway_server/workqueue.py:put_backoff, put_after, _put_delayed"]}
{"id": "C139", "title": "With failing database calls, whoever waits for a cluster is still told", "statement": "The flag a request waits for (ready, shutdown) is set exactly when the cluster's status says so.", "quantifier": "all histories of requests, heartbeats, timers, backend operations and restarts, in which every database call may fail: before it changed anything, after the objects in memory changed and with the transaction rolled back, or after its commit", "why_tests_cant": "as before", "anchors": ["dask-gateway-server/dask_gateway_server/backends/db_base.py:_cluster_to_running, _cluster_to_stopped, _cluster_to_closing, get_cluster"]}
{"id": "C140", "title": "Once the database works again, what was asked is carried out", "statement": "In every endless run in which reconcilers and timers get their turns and backend operations end, database calls raise for a while before they change anything, and some day work again: a stop request that was answered with success ends with the cluster and all its workers finished and its routes gone, for good; so does every other reason to end, and every decision to end a worker; what was created is given to the backend; a running cluster gets its routes and workers unless it has to end. Failures of other kinds before the last restart do not change this.", "quantifier": "all endless fair runs with finitely many failing calls, from all reachable states", "why_tests_cant": "an infinite run; the number and place of the failures is unbounded", "anchors": ["dask-gateway-server/dask_gateway_server/backends/db_base.py:reconciler_loop, reconcile_cluster, reconcile_worker", "dask-gateway-server/dask_gateway_server/workqueue.py:put_backoff, put_after"]}
{"id": "C141", "title": "On Kubernetes a cluster that is asked to stop does stop", "statement": "If the controller keeps running, its informer goes on, its reconcilers and timers get their turns, and the API server answers as it should from some moment on, then every DaskCluster object with active=false is some day recorded as stopped or failed (or deleted), and stays so; the run that records it has had the deletion of the scheduler's pod and of the secret confirmed. Whenever the controller has nothing to do, no object with active=false is left without such a record.", "quantifier": "all endless fair runs, from all reachable states, with finitely many failing requests, stale caches and overlapping changes", "why_tests_cant": "an infinite run with arbitrary delays between watch events, runs and failures", "anchors": ["dask-gateway-server/dask_gateway_server/backends/kubernetes/controller.py:handle_cluster, reconciler_loop, on_cluster_update, cleanup_cluster_resources", "dask-gateway-server/dask_gateway_server/workqueue.py:put_backoff, task_done"]}
{"id": "C142", "title": "On Kubernetes a cluster starts when its scheduler is ready, and fails when it has ended", "statement": "Under the same conditions, if nobody stops the cluster: a starting cluster whose scheduler's pod runs and whose endpoints are ready is some day no longer pending; a cluster whose scheduler's pod has ended is some day recorded as failed or stopped; a cluster whose scheduler's pod is gone is not shown as running for ever. The same holds whenever the controller has nothing to do. A cluster that is still pending when its scheduler's pod vanishes stays pending for ever.", "quantifier": "all endless fair runs, from all reachable states, with finitely many failing requests and stale caches", "why_tests_cant": "an infinite run; the last of several informer events must wake the controller in every order of events", "anchors": ["dask-gateway-server/dask_gateway_server/backends/kubernetes/controller.py:handle_pending_cluster, handle_running_cluster, on_pod_update, on_pod_delete, on_endpoints_update", "dask-gateway-server/dask_gateway_server/workqueue.py:put, task_done"]}
{"id": "C143", "title": "On Kubernetes a shortage of workers is attended to, for ever", "statement": "Once the DaskCluster object asks for r workers and the controller is not restarted any more, then again and again the controller counts at least r worker pods or has requests for more on their way, however pods end, vanish or are refused in between, provided that informers, reconcilers, timers and the API server go on, that every pod has some day a status that says something, and that no pod vanishes before the controller knew of it. If moreover pods are made when asked for, do not end, and go only when the controller wants it, then again and again at least r workers are counted. Without the condition on vanishing pods it is false: the controller can wait for ever for a pod that is gone.", "quantifier": "all endless fair runs, from all reachable states, all numbers of workers", "why_tests_cant": "an infinite run; the expected creations and deletions must be accounted for exactly in every order of answers, watch events and relists", "anchors": ["dask-gateway-server/dask_gateway_server/backends/kubernetes/controller.py:handle_running_cluster, handle_scale_up, handle_scale_down, batch_create_pods, on_pod_update, on_pod_delete, reconciler_loop", "dask-gateway-server/dask_gateway_server/backends/kubernetes/controller.py:ClusterInfo", "dask-gateway-server/dask_gateway_server/workqueue.py:put, put_backoff, task_done"]}
{"id": "C144", "title": "Times in Kubernetes objects are read back as they were written, to the second", "statement": "At every moment from 1970 to the year 9999, the completion time the controller writes into a DaskCluster object is the calendar date and time of day of that moment, leap days and centuries included. Every existing date and time in that range is read as the moment it names, so a written moment is read back as its second, and later moments are not read as earlier ones. A date or time that does not exist is refused with an error.", "quantifier": "all moments in that range; all texts of the form YYYY-MM-DDThh:mm:ssZ", "why_tests_cant": "about three million days and 253 thousand million seconds; tests run on a few dates", "anchors": ["dask-gateway-server/dask_gateway_server/backends/kubernetes/utils.py:parse_k8s_timestamp, k8s_timestamp", "dask-gateway-server/dask_gateway_server/backends/kubernetes/controller.py:handle_cluster, cleanup_cluster_resources", "dask-gateway-server/dask_gateway_server/backends/kubernetes/backend.py:_cluster_update"]}
{"id": "C145", "title": "Requests that watch the routes leave nothing behind, and end when the gateway does", "statement": "The gateway keeps something in memory for a request that watches the routes exactly as long as the request is in progress, however it ends. Before a shutdown such a request ends only because its connection fails. Once a shutdown has begun nothing more is sent, no further request begins to be served, every request is over at its next turn, and the shutdown waits for those that were being served, and for nothing else. What is kept for one request is bounded: false, for a client that does not read any number of events is kept.", "quantifier": "all interleavings of requests, route changes, failing connections and the shutdown", "why_tests_cant": "the critical moments (a request between its registration and its loop, or cancelled while it writes) are races", "anchors": ["dask-gateway-server/dask_gateway_server/proxy/core.py:routes_handler, _append_event, _on_shutdown", "dask-gateway-server/dask_gateway_server/utils.py:CancelGroup, _cancel_context"]}
{"id": "C146", "title": "A scheduler takes orders from its own gateway only, and just as they were meant", "statement": "A request to a scheduler's API changes the requested size or the adaptive bounds exactly if it shows the cluster's token and says so in JSON; it is then answered with 200, and every other request with an error and without effect. What the gateway sends for its users' requests is accepted by the cluster's own scheduler and means there what it meant at the gateway, limit included; any other scheduler refuses it. A scheduler process whose name, gateway address or token is missing, or which cannot read its token or listen, exits instead of running unmanaged.", "quantifier": "all requests, tokens, bodies and environments", "why_tests_cant": "the requests are arbitrary; both ends are tested apart from each other", "anchors": ["dask-gateway/dask_gateway/scheduler_preload.py:BaseHandler, CommHandler, make_gateway_client, dask_setup", "dask-gateway-server/dask_gateway_server/backends/base.py:forward_message_to_scheduler", "dask-gateway-server/dask_gateway_server/routes.py:scale_cluster, adapt_cluster"]}
{"id": "C147", "title": "What is set in the Helm chart's values is what the gateway runs with", "statement": "A gateway installed with the Helm chart has a cluster option set exactly if it is set (present and not null) in the chart's values, and to that value; the image is name:tag; the authenticator and its settings are those of the chosen kind, and with an unknown kind the gateway does not start. Values pass from the chart to the gateway unchanged whatever characters they contain; extra code blocks are appended once each in the order of their keys. Secrets are not written to the ConfigMap: the JupyterHub token goes through a Secret. Image pull secrets are used whenever they are given.", "quantifier": "all values of the chart (arbitrary nested maps and texts) and environments", "why_tests_cant": "the values are arbitrary user input; tests render a few of them", "anchors": ["resources/helm/dask-gateway/templates/gateway/configmap.yaml:get_property and the code around it", "resources/helm/dask-gateway/templates/gateway/secret.yaml", "resources/helm/dask-gateway/templates/gateway/deployment.yaml"]}
{"id": "C148", "title": "The local backend runs a cluster's processes with the rights of the cluster's user", "statement": "Schedulers and workers of the local backend run as the user to whom the cluster belongs: real, effective and saved ids and supplementary groups are the user's, never the gateway's, and the process cannot change them. Every user with an account is served and nobody without; a gateway without privileges serves only the user who started it. The backend meant for tests makes no such separation.", "quantifier": "all account and group databases, credentials of the gateway, and later calls of the process", "why_tests_cant": "the tests run the unsafe backend only; the code is marked nocover", "anchors": ["dask-gateway-server/dask_gateway_server/backends/local.py:LocalBackend.make_preexec_fn, UnsafeLocalBackend.make_preexec_fn, start_process"]}
{"id": "C149", "title": "No client keeps the proxy from serving the others", "statement": "Whatever clients do on their connections, the proxy goes on serving: what happens on one connection changes nothing about the others, a client that names a cluster is connected to that cluster and no other, connections meant for the HTTP server reach it, and every connection's resources are given back when it ends.", "quantifier": "all sequences of connections, answers, dial results and ends, interleaved in any way, all limits and routing tables", "why_tests_cant": "needs every interleaving of connections and the exhaustion of the process's descriptors; the proxy's tests open a handful of well-behaved connections", "anchors": ["dask-gateway-server/dask-gateway-proxy/cmd/dask-gateway-proxy/main.go:runTCP, handleConnection, Forwarder, run"]}
{"id": "C150", "title": "The parts of an installation of the Helm chart fit together", "statement": "With the Helm chart installed under any usual path prefix, an API request sent to the proxy under that prefix arrives at the gateway with the prefix removed, a request for a cluster's dashboard arrives at that cluster's dashboard with the path the dashboard serves, and no request goes anywhere else, whatever clusters exist. Schedulers and workers call the gateway at the service that leads to its pods and to no others; controller, gateway and proxy look for the same label, which every object made for a cluster has; connections to schedulers come in at a port that is open.", "quantifier": "all release names, namespaces, overrides, prefixes, ports, sets of clusters and request paths", "why_tests_cant": "templates, controller and proxy are never run together by the tests; the claim ranges over all prefixes, names and requests", "anchors": ["resources/helm/dask-gateway/templates/_helpers.tpl", "resources/helm/dask-gateway/templates/gateway/{service,ingressroute,middleware,configmap}.yaml", "resources/helm/dask-gateway/templates/controller/configmap.yaml", "resources/helm/dask-gateway/templates/traefik/{service,deployment}.yaml", "dask-gateway-server/dask_gateway_server/backends/kubernetes/controller.py:make_ingressroute, make_ingressroutetcp, _validate_proxy_prefix"]}
{"id": "C151", "title": "Two installations of the Helm chart in one Kubernetes cluster do not mix", "statement": "After any sequence of installing and uninstalling releases of the chart, of two installed releases neither's controller, gateway or proxy looks at an object made for a cluster of the other one.", "quantifier": "all sequences of installations and removals, all release names, namespaces and overrides, all clusters and configurations", "why_tests_cant": "depends on which installations Helm lets exist side by side, a history no test runs through; names are cut and overridden, so that different releases can have the same name for their objects", "anchors": ["resources/helm/dask-gateway/templates/_helpers.tpl", "resources/helm/dask-gateway/templates/{gateway,controller,traefik}/rbac.yaml", "resources/helm/dask-gateway/values.yaml:rbac", "dask-gateway-server/dask_gateway_server/backends/kubernetes/controller.py:label_selector, get_labels"]}
{"id": "C152", "title": "The roles of the Helm chart allow what the gateway and the controller do, and little else", "statement": "Where the chart makes the roles, every request that the gateway and the controller send to Kubernetes is allowed to the account their pods run under, in every namespace. The gateway can do nothing but deal with cluster objects and read secrets; the controller can read no secret, change no existing pod, service or route and run no command in a pod; the proxy can change nothing. The pods of clusters get no account's token.", "quantifier": "all releases, values of rbac, requests, namespaces and names", "why_tests_cant": "rights that are missing show only on the path that needs them, in a Kubernetes cluster with authorisation on; rights that are too many never show in a test", "anchors": ["resources/helm/dask-gateway/templates/{gateway,controller,traefik}/rbac.yaml", "resources/helm/dask-gateway/templates/{gateway,controller,traefik}/deployment.yaml:serviceAccountName", "dask-gateway-server/dask_gateway_server/backends/kubernetes/backend.py", "dask-gateway-server/dask_gateway_server/backends/kubernetes/controller.py"]}
{"id": "C153", "title": "YARN: whatever is done to an application is done to the one of the cluster concerned, and a stopped cluster is forgotten", "statement": "Whatever clusters and workers are started, checked and stopped, in whatever order the calls take effect, and whatever applications end and give their addresses to others: a container is added only to the application of its worker's cluster, only the containers of workers to be stopped are killed, and only the application of a stopped cluster. A worker of a cluster whose application runs is started in it, and stopping it ends its container. A stopped cluster's application has ended and nothing of it stays in the gateway's memory.", "quantifier": "all sequences of requests, application events, thread completions and restarts; all cache sizes", "why_tests_cant": "container numbers repeat in every application and addresses are used again, so a stale cache entry would act on another cluster; that needs particular orders of events and a YARN cluster", "anchors": ["dask-gateway-server/dask_gateway_server/backends/yarn.py:_get_app_client, do_start_cluster, do_stop_cluster, do_start_worker, do_stop_worker, do_check_workers", "dask-gateway-server/dask_gateway_server/utils.py:LRUCache"]}
{"id": "C154", "title": "Template strings in the client's configuration mean what is documented", "statement": "A text in the client's configuration that is documented as a template (the gateway's addresses, the authenticator's arguments, default cluster options) stands for itself with every {NAME} replaced by the environment variable of that name and doubled braces halved. The variables' values are put in as they are and never read as templates. A variable that is not defined is an error, never an empty text. Text without braces, values that are no text, and addresses given as arguments are used unchanged. Texts inside of lists and dicts and templates for a port work likewise.", "quantifier": "all texts, environments, options and configurations", "why_tests_cant": "tests try a few templates; that values are never formatted again, that nothing but the named variables matters and that every other text raises are statements over all texts and environments", "anchors": ["dask-gateway/dask_gateway/utils.py:format_template", "dask-gateway/dask_gateway/client.py:Gateway.__init__, Gateway._config_cluster_options", "dask-gateway/dask_gateway/auth.py:get_auth"]}
{"id": "C155", "title": "The workers a GatewayCluster shows are those the scheduler had, and following them never fails", "statement": "However workers come and go, and however the scheduler's messages are batched and delayed: the workers in a GatewayCluster's scheduler_info are always exactly those the scheduler had at some moment, and once everything sent is read they are the present ones. Following them ends only when the connection breaks or the object is closed, never with an unknown worker. The widget's numbers are the count, threads and memory of such workers. The view goes on to follow the scheduler until the object is closed, and a widget shows the present numbers once everything is read.", "quantifier": "all sequences of workers arriving and leaving, subscription, batches, reads, disconnections, closing and widget creation", "why_tests_cant": "the answer to the subscription, batches and removals race with one another and with the user's thread; tests see one order and wait until it fits", "anchors": ["dask-gateway/dask_gateway/client.py:GatewayCluster._init_internals, _watch_worker_status, _widget_status, _widget"]}
{"id": "C156", "title": "What an option's widget shows is what the option is", "statement": "However options are assigned in code, entered in their widgets and displayed: an option's value is always valid, its widget shows the value, and a valid value that is assigned or entered becomes the value. An invalid assignment raises and changes nothing. The text in a mapping's widget stands for the mapping, or it is marked as wrong and the option keeps its last mapping.", "quantifier": "all kinds of fields and bounds, all sequences of assignments, entries and displays, all texts and mappings", "why_tests_cant": "assignments notify the widget, whose handler assigns the option again, and bounds change values on the way; tests try a few values, and the browser's side is not tested at all", "anchors": ["dask-gateway/dask_gateway/options.py:Field.set, Field.widget, Integer._widget, Float._widget, Select, Mapping.set, Mapping.widget"]}
{"id": "C157", "title": "A program that ends stops the clusters it started", "statement": "Whatever GatewayCluster objects a program makes, closes, gives up and fails to make: when the interpreter ends, or when nothing refers to an object any more, the gateway is asked to stop every cluster started with shutdown_on_close that was not closed before. It is never asked to stop another cluster, except by close(shutdown=True), and by each object only once. shutdown() asks for it whatever was done before.", "quantifier": "all sequences of making, closing and dropping objects with any outcome; every order of the set of objects at exit", "why_tests_cant": "what is left at exit depends on the program's history, on which constructions failed and how, and on the order of a set", "anchors": ["dask-gateway/dask_gateway/client.py:cleanup_lingering_clusters, GatewayCluster._init_internal, close, __del__, __repr__"]}
{"id": "C158", "title": "What counts when options of a new cluster are given in several places", "statement": "For every set of options the server offers and every local configuration: a cluster made with new_cluster gets, for each option, the keyword argument; else what the Options object holds if one is given; else, without an Options object, the default of the local configuration; else the server's default. The call is refused exactly if a name is unknown or a value that counts is wrong. new_cluster(gateway.cluster_options(), ...) gives the same as new_cluster(...); with use_local_defaults=False the local configuration has no effect. A local default that is overridden or not needed never gets in the way.", "quantifier": "all declared options, local configurations, environments, assignments and keyword arguments", "why_tests_cant": "four sources of values, two validators and any set of options interact; a test tries a few combinations", "anchors": ["dask-gateway/dask_gateway/client.py:Gateway._config_cluster_options, _cluster_options, _submit", "dask-gateway/dask_gateway/options.py:Options", "dask-gateway-server/dask_gateway_server/options.py:Options.parse_options"]}
{"id": "C159", "title": "Every option of a new cluster can be given by keyword", "statement": "Whatever options the server offers and whatever keyword arguments a program gives: Gateway.submit, Gateway.new_cluster and GatewayCluster either raise a TypeError or send every keyword argument they do not document as their own, in the order given, and nothing else; they raise only for named clashes, and the three agree. Every option the server offers can be given by keyword.", "quantifier": "all sequences of keyword arguments with any names and values; all offered options", "why_tests_cant": "names of options are chosen by the operator and pass through several signatures; tests use names that do not clash", "anchors": ["dask-gateway/dask_gateway/client.py:Gateway.submit, sync, new_cluster, GatewayCluster.__init__, _init_internal, _submit"]}
{"id": "C160", "title": "An Options object stays valid whatever a program does with it", "statement": "For every set of options the server offers and every sequence of uses of the client's Options object (by key, by attribute, as a mapping: get, pop, popitem, clear, setdefault, update, del): it always has exactly the offered options, in order, with values the server takes unchanged. Setting works exactly for values the server accepts, the same by key and by attribute, and changes no other option. An option is read the same both ways. An operation that raises changes nothing.", "quantifier": "all offered options, all finite sequences of uses with any names and values", "why_tests_cant": "the mapping methods come from a base class and combine with the field checks; histories are unbounded", "anchors": ["dask-gateway/dask_gateway/options.py:Options._get, _set, __getattr__, __setattr__, __getitem__, __setitem__, __delitem__, __iter__, __len__"]}
