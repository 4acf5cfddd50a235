# Formal model of dask-gateway: design

The code in `/repo` (Python gateway server and client, Go proxy) is read as text and re-stated, function by
function, as executable Gallina under `rocq/theories`.  Every property of `properties.jsonl` becomes a theorem over
*all* inputs / histories of that model, or a `_refuted` theorem with a concrete witness where the code violates it.

## Layout

* `*_Model.v`  – definitions only, each citing file and lines in `/repo` and every simplification.
* `*_Spec.v`   – (where needed) the small independent vocabulary used to state properties.
* `*_Proofs.v` – lemmas.
* `P_*.v`      – property theorems only, each closed by `exact lemma`, followed by `Print Assumptions`, with an
  `Example` showing that the hypotheses are met by a non-trivial case.

## How concurrency, failures and time are modelled

* asyncio code runs without preemption between `await`s.  A coroutine is cut at the `await`s that can really suspend;
  each piece is one atomic step.  A history is an arbitrary finite list of steps (events); an event that is not
  enabled leaves the state unchanged (or reports an error value).  Theorems quantify over all lists.
* Exceptions are values.  Outcomes of external calls (backend processes, k8s API, HTTP) are event parameters, so every
  pattern of failures is covered.
* Clock readings are event parameters (arbitrary integers/rationals); monotonicity is assumed only where stated.
* Random tokens/uuids are event parameters, assumed fresh only where stated.

## Plan per property

| id | model | proof |
|----|-------|-------|
| C01–C03 | `WorkQueue_Model`: queue/dirty/processing/timers/waiters and every method of `WorkQueue`, `get` cut at `await waiter` | invariant by induction over histories; ghost log of puts and hand-outs |
| C04 | same, timers as map item -> deadline, event "timer fires" | invariant: timer = min of outstanding requests |
| C05 | `Backoff` as a map with exact rational/integer delays | closed form by induction |
| C06 | same model incl. cancellation of waiters | invariant without cancellation; refuted with cancellation after wake-up |
| C07 | same | invariant after close |
| C08–C11 | `Router_Model`: rose tree keyed by segment strings, byte-level `normalizePath`/`getSegment` with slice bounds checked | refinement to a finite map on segment lists; canonical form of the tree |
| C12, C14 | `ProxyLog_Model`: routes dict, event list, offset, next id | invariant; refuted for `max_events` < 2 (C14) |
| C13, C15 | gateway model composed with the Go proxy's fetch/watch loop | simulation invariant per gateway lifetime, also with targets the proxy rejects; refuted across restarts |
| C16, C17, C63, C64 | `Sni_Model`: chunked byte stream, bufio peek with 4096 byte buffer, wrapped reader; server-name parser an arbitrary function | stream equation by induction; decision table |
| C18–C32 | `Gateway_Model`: in-memory tables + database + queue + suspended reconcile/check coroutines, all methods of `DBBackendBase`/`DataManager` that touch them | inductive invariants over arbitrary event lists incl. crash/restart; refutations as concrete event lists; C22 relative to an earlier state in `Gateway_Size` (theorems in `P_Gateway3`) |
| C33, C34 | `Api_Model`: `UserCache`, `authenticate_and_handle` as a machine whose requests arrive and finish | invariant over histories; refuted in part (C34) |
| C35–C37, C39, C61 | `Api_Model`: handlers as functions request × backend answers -> response × effects | case analysis + induction on retries; C37, C39 refuted in part |
| C38, C65 | user-name construction and header parsing on strings | injectivity; exact characterisation of what is accepted |
| C40–C43 | `Options_Model` (server and client), JSON value type with int/float/bool/str/list/dict/None and NaN | induction on declared fields |
| C44, C45 | `Config_Model`: integer arithmetic of limits and unit formatting | arithmetic |
| C66 | `Config_Model`: construction of a configuration from operator settings and overrides | case analysis over the three phases |
| C46 | `RateLimiter` over rationals | induction over arrivals |
| C47 | `LRUCache` as ordered association list | refinement |
| C48 | `merge_json_objects` on a JSON tree | structural induction |
| C49–C51, C67, C99 | `Kube_Model`: `ClusterInfo`, pod handlers, `handle_running_cluster`, `batch_create_pods` | invariants over event histories; refuted in part |
| C53 | `Informer_Model`: `Informer` against a log of server changes | invariant over event histories |
| C85, C86 | `Launch_Model`: environment and command of schedulers and workers per backend | equations for all inputs; refuted in part |
| C87–C91 | `Manifest_Model`: the Kubernetes objects as JSON values | equations for all inputs, with the meaning of selectors, routes, mounts and owners in `Manifest_Spec`; refuted in part |
| C92–C94 | `Files_Model`: files, directories and batch jobs that starting and stopping a cluster makes and removes | laws over runs of file operations that may fail at any point; refuted in part |
| C95 | `Proc_Model`: `stop_process`, `wait_is_shutdown` against a table of who holds the process id when | induction over attempts and waits; refuted in part |
| C100 | `Super_Model`: the proxy process, its monitor, shutdown and crash of the gateway | invariants over timed event histories |
| C101–C104 | `ProxyCmd_Model`: normalized addresses, start command, Go's flag parser and `main`, the token's way through the header | equations for all inputs; C101, C103, C104 refuted in part |
| C105–C106 | `Wire_Model`: `json.dumps`, `bufio.Scanner`, `json.Unmarshal`, `evIter`, and the loop of `watchRoutes` with the limit on lines | induction over the text; simulation by `ProxyLog_Model`, and an invariant for the stuck proxy; C106 refuted in part |
| C107–C109 | `App_Model`: `DaskGateway.setup`, `cleanup`, `main`, `run_main`, the setup and cleanup of the database backends as lists of instructions, with signals, requests and turns of the reconcilers in between | invariants over all histories (where main is determines what exists); drain argument for the end; refuted in part by concrete histories |
| C110–C112 | `World_Model`: `Gateway_Model`, `ProxyLog_Model`, `Sni_Model` and `Router_Model` as one system | joint invariant: what the proxy ever holds was once added by a call that a heartbeat caused; the gateway's log and its clusters' flags agree; C111 refuted for a proxy older than the gateway |
| C113–C115 | `Fleet_Model`: `Gateway_Model` and, for each cluster, `Report_Model` (the scheduler's plugin), joined by the messages in flight | joint invariant: what the scheduler has told and had acknowledged is what the gateway's rows say; C113 and C114 refuted in general (overtaking; a lost answer) |
| C116–C118 | `Ask_Model`: the API's requests for a size, their attempts and messages (routes.py, base.py), `Adapt_Model` for each cluster, and `Fleet_Model` | invariant about one request among whatever else happens; C116 refuted in general (a late message of an earlier attempt); C117 = C116 with C114; C118: invariant over all messages, waiting requests and bounds |
| C119, C120 | `KFleet_Model`: heartbeats, `on_cluster_heartbeat`, the versions of the cluster object, the controller's queue for it, and `Kube_Model` | invariant: the key is queued or scheduled, or the last run was for the cached size and nothing has woken the controller since; with C99 and C67; refuted in part |
| C121-C124 | `Visit_Model`: any number of calls of `new_cluster()` and `connect()` (`_start_async`, `_wait_for_start`, `_request`, `_stop_internal`), the routes that answer them, and `Gateway_Model` | invariant: every answer a call holds was true of the gateway at a moment of the call; forward simulation to the gateway's histories; liveness from C80-C82 and the timeouts of C30; refuted in part |
| C125-C130 | `KApi_Model`: the requests POST, GET, GET ?wait and DELETE on Kubernetes, the versions of the cluster objects at the API server, the watch, and `View_Model` with its Flags | invariant: what the gateway shows, builds or has cached are versions of the object, in this order of age; one more relates Flags, waiting requests and what is shown; refuted in part |
| C131-C139 | `Fault_Model`: the functions of `Gateway_Model` cut at every database call; each call may work, raise before a change, raise with the tables rolled back after memory changed, or raise after the commit; `Fault_Adequacy` proves that without failures it is `Gateway_Model` | every event is a chain of the primitive steps for which the invariants of `Gateway_Model` were proved (`Fault_Chain`), so that they carry over; then properties of histories (`Fault_Hist`); refuted in part |
| C140 | `Fault_Model`, endless runs (`Fault_Spec2`) | after the last failure the timers of the work queue only run out (induction on the set of timers); from then on the run is, by `Fault_Adequacy`, one of `Gateway_Model` in a state that satisfies its invariant, and the proofs of C81-C82 apply (`Gateway_Live`, stated for any start that satisfies the invariant) |
| C141, C142 | `KLife_Model`: `Phase_Model` with the cluster's key in the controller's work queue and the informers' caches of the scheduler's pod and endpoints; endless runs (`KLife_Spec`) | invariant: the key is queued or scheduled, or a version is unseen, or the run going on has the cached snapshot and caches that matter, or nothing is to be done; with it, from any moment on a run begins later that knows the object of that moment; then by the outcome of that run; C142 refuted in part |
| C143 | `KFleet_Model`, endless runs (`KFlow_Spec`) | invariant: expected creations are outstanding requests or existing pods that are not known yet, expected deletions are pods known to the controller that were or will be asked for; in a fair run the former become known and the latter go, so the expectations are met some day; then the key is queued or scheduled unless there are enough workers; for the second part, pods that live and are not being deleted become more with every answered request; refuted in part |
| C144 | `Stamp_Model`: k8s_timestamp and parse_k8s_timestamp on CPython's date arithmetic | the calendar is specified by the successor of a day (`Stamp_Spec`); number of days and successor agree, numbers of days are injective on dates, _ord2ymd inverts them (cycles of 400, 100, 4 years by arithmetic, the days of a year by computation); decimal text by induction |
| C145 | `Watch_Model`: routes_handler with ?watch as a task, CancelGroup, _on_shutdown | invariant: queues, tasks and accepted requests without an end are the same; a task in its loop is in the group, and after the shutdown cancelled and waited for; refuted: the queue of a client that does not read |
| C146 | `Comm_Model`: the scheduler's HTTP API and its start, as functions of request and environment; the gateway's request of `Api_Model`'s messages | case analysis against a declarative reading of requests (`Comm_Spec`); joined with C39 |
| C147 | `Chart_Model`: the gateway's templates of the Helm chart and the Python code in them, Go's quoting and Python's string literal | values at paths (`Chart_Spec.found`) against dictionary operations; induction over texts |
| C148 | `Ids_Model`: `make_preexec_fn` of both local backends over Linux's credentials and the calls that change them | case analysis on privileges; induction over later calls for confinement |
| C149 | `Accept_Model`: runTCP, handleConnection and Forwarder as one process over its connections and descriptors | invariant on descriptors by induction over events; case analysis of one step for the rest |
| C150 | `Fit_Model`: names, services, routes, middlewares, labels and configurations of the chart as JSON objects, joined with the routes of `Manifest_Model`, and Traefik's choice of routes and stripping of prefixes | characterisation of the routers by cases on the objects; matching of the regular expression by induction on the text |
| C151 | `Roles_Model`: the objects of a release by kind, namespace and name, Helm's refusal to take over objects of another release, histories of installations; the labels and selectors of `Fit_Model` and `Manifest_Model` | invariant by induction over the history; equality of labels gives a common object |
| C152 | `Roles_Model`: the rules of the three roles, their bindings, the accounts of the deployments, the requests with verb, group, resource and namespace | cases on requests and rules; names of the accounts differ by their first character |
| C153 | `Skein_Model`: YARN's applications with states, addresses and containers, the gateway's records, its two caches, and calls that take effect later in threads | invariant over all sequences (caches and pending calls name the cluster's own application), monotonicity of the records, then cases |
| C154 | `Template_Model`: str.format over characters for fields that are names; `Template_Spec`: templates as sequences of pieces and how they are written | strong induction over the text and induction over the pieces: the text formats to t if and only if it is written by pieces meaning t |
| C155 | `Follow_Model`: the scheduler's workers, its buffer, the connection, the client's task and the widget made in two steps | invariant: what is under way leads from the client's workers through workers the scheduler had to the present ones; induction over histories; refuted in part |
| C156 | `Form_Model`: a field with its input, the input's bounds, and the handler that sets the field again; a mapping's text with reading and writing as parameters and the recursion limit as fuel | invariant over sequences of events; refuted in part |
| C157 | `Quit_Model`: the objects of a program with their health, the requests made, the loop at exit over any order of the set | invariants over all histories; induction over the order; refuted in part |
| C158 | `Choose_Model`: how `_submit` and `_cluster_options` combine the sources, on top of `Options_Model` and `Template_Model` | the client's objects mirror the server's fields under updates; refuted in part |
| C159 | `Keyword_Model`: Python's binding of keyword arguments through the chain of calls | composition lemma for calls; refuted in part |
| C160 | `Access_Model`: the methods of Options and of MutableMapping as uses with answers | every use is a list of assignments, then the mirror invariant of `Options_Proofs`; refuted in part |
| C96 | `Addr_Model`: `urlparse`, `Gateway.__init__`, the addresses of a cluster report, `parse_gateway_address` | equations for all inputs; refuted in part |
| C97, C98 | `Session_Model`: the client's `_request` and authentication against `Api_Model` | consequences of the session invariants of C33 for requests in arbitrary histories; refuted in part |
| C52, C68, C69, C84 | `Phase_Model`: `handle_*` against the versions of one object | invariants over event histories; refuted in part |
| C54 | `View_Model`: `sync_cluster`, `list_clusters`, `get_cluster` | invariants over event histories; refuted in part |
| C55, C71 | `Adapt_Model`: `adapt`, `adapt_loop`, `scale` cut at awaits | invariants over event histories; refuted in part |
| C56 | `Report_Model`: `worker_added`, `worker_removed`, `heartbeat` cut at its two awaits (answer of the gateway, retirement) | invariant over event histories |
| C57, C72 | `Idle_Model`: `check_idle` | invariant over event histories; C72 refuted in part |
| C70 | `Beat_Model`: `Waiter`, `heartbeat_loop` cut at awaits | invariants over event histories; refuted in part |
| C58 | `Client_Model`: `GatewayCluster` start/stop coroutines cut at awaits | invariant over event histories; refuted in part |
| C59, C73, C74 | `Check_Model`: `do_check_workers`, `do_check_clusters`, `_do_check`, `parse_job_states`, `_check_status` as list functions | laws for all inputs; C59, C74 refuted in part |
| C76–C80 | `Gateway_Model` (as C18) | consequences of the invariants of C18–C32 and case analysis of each event; C80 refuted in part |
| C81–C83 | `Gateway_Model` (as C18); endless runs as functions from nat, fairness in `Gateway_Spec3` | proved: each due piece of work is in the queue, in a dirty set or in a reconciler's hands (`Gateway_Queue`); it moves forward in line, so it is taken (`Gateway_Live`); progress by status and by number of unfinished workers; existence of fair runs from every reachable state by an explicit schedule |
| C60, C75 | `Cred_Model`: base64, PEM text, join/split, key normalization; encryption an arbitrary authenticated cipher | laws for all inputs |

## Trusted base

* Coq 8.16.1 kernel (and `vm_compute` for witnesses).
* `Print Assumptions` of every theorem in `P_*.v` says "Closed under the global context": no axioms, neither ours nor
  the standard library's.  (The file-level check also lists `Coq.ssr.ssrunder.Under_rel.*`: constants the standard
  library itself declares opaque in a module type and that std++ loads; no theorem depends on them.)
* The faithfulness of the models to the cited source, by reading.  Each definition cites the lines.

## What the models cover

* `WorkQueue_Model`: all of `workqueue.py`.  Times and delays are integers.
* `Router_Model`: `router.go` and the request rewriting of `ServeHTTP`; not Go's `net/http`.
* `ProxyLog_Model`: `proxy/core.py` (routes, event log, `remove_route`/`add_route`, the two handlers) and the
  fetch/watch loop and event application of `main.go`; not the child-process supervision, not token checks.
* `Gateway_Model`: `db_base.py`: `DataManager`, both tables, the reconcilers, the check loops, heartbeats, the
  public calls `start_cluster`/`stop_cluster`/`get_cluster`/`list_clusters`, `load_database_state`, shutdown
  (`stop_clusters_on_shutdown`), `cleanup`.  The backend's `do_*` methods are oracles.  Not modelled here: failing
  database calls (see `Fault_Model`), the content of options/config beyond the worker limit, logging, `sync_task` threads.
* `Sni_Model`: `pkg/sni`, `handleConnection`, `proxyConnections`; the ClientHello parser of crypto/tls is an arbitrary
  function of the first record's bytes; not the accept loop, not deadlines.
* `Api_Model`: `auth.py` without Kerberos, all handlers of `routes.py` that take user data, `models.py`
  `has_permissions`/`to_dict`, `forward_message_to_scheduler`.  The backend's answers are arbitrary per request.
* `Options_Model`: `options.py` on the server (all field types, `Options.parse_options`, `get_configuration`, handler)
  and `dask_gateway/options.py` on the client (`Options` object, assignment, `_fields`); the widgets are `Form_Model`.
* `Util_Model`: `RateLimiter` (rationals instead of floats, calls in the order of arrival), `LRUCache`,
  `merge_json_objects` both on values and on a heap of mutable objects.
* `Config_Model`: the resource part of `ClusterConfig`, `MemoryLimit`, the memory strings of PBS and Slurm (with the
  rounding of Python's int/int division).  The order in which traitlets assigns and cross-validates keyword arguments
  and configuration is part of the model and is trusted (traitlets is not in the repository).
* `Kube_Model`: `ClusterInfo`, `on_pod_update`/`on_pod_delete` for worker pods, the informer's delivery and relist,
  `handle_running_cluster` with a running scheduler, `handle_scale_up`/`handle_scale_down`, `batch_create_pods`,
  `create_pod`/`delete_pod`, controller restarts.  The API server is a map of pods with a queue of watch events; a
  relist is atomic; pod names are fresh; a deleted pod stays until the server removes it; a pod that ended does not run
  again.  A 404 on deletion counts as a failure (the code reads `exc.code`, which the exception does not have).
* `Informer_Model`: `Informer` (list, watch, relist, handler calls).  A resource version is a position in the server's
  log of changes; a list is answered at some version between request and answer.  Not modelled: objects without a
  resourceVersion, exceptions outside of the `try` blocks (they end the task).
* `Phase_Model`: `reconcile_cluster`, `handle_cluster`, `handle_pending_cluster`, `handle_running_cluster` (scaling only
  as a return value), `cleanup_cluster_resources`, `create_*_if_not_exists`, `get_container_state`, the cleanup of expired
  records.  One cluster object with all its versions; the watch cache is a position in them that never goes back (C53).
  Runs of one object do not overlap (C04); between start and end of a run anything may happen; the answers a run gets are
  given when it ends.
* `View_Model`: `sync_clusters_loop`, `sync_cluster`, `list_clusters`, `get_cluster` (without waiting) of the Kubernetes
  backend.  Cluster objects have a user, a phase, a service, whether credentials are recorded, and a completion time;
  other fields are copied in the same way.  The queue is a set of keys (C01-C05), the cache changes by events (C53).
* `Adapt_Model`, `Beat_Model`, `Report_Model`, `Idle_Model`: the parts of `GatewaySchedulerService` in the scheduler's
  preload module.  asyncio's cancellation is modelled at the two places where it matters (the sleep of the heartbeat loop
  and the adaptive loop within `cancel_task`).  From distributed it is assumed that worker names of connected workers
  are distinct, that `workers_to_close` names connected workers, and that work changes only by logged transitions.
  Not modelled: `stop`. The HTTP handlers are `Comm_Model`.
* `Client_Model`: `_start_internal`, `_start_async`, `_stop_internal`, `_stop_async`, `close` of `GatewayCluster`; the
  tasks are states, their awaits events.  Not modelled here: the connection to the scheduler, watching worker status (`Follow_Model`).
* `Check_Model`: the status checks of the YARN, PBS, Slurm, local and in-process backends and the use of their answers in
  `check_clusters_loop`/`check_workers_loop`.  Command output is ASCII.  Whether a process runs, and what an application
  reports, are parameters.
* `Cred_Model`: `_normalize_encrypt_key` (with the lenient base64 decoder of CPython's binascii), the environment
  variable, `encode_*`/`decode_*`, MultiFernet over an abstract Fernet, the text form of `new_keypair`.  Not modelled:
  the content of certificates; UTF-8 beyond ASCII.
* `Launch_Model`: `get_env`, `get_scheduler_command`, `get_worker_command` of the backends, `get_submit_cmd_env_stdin` of
  PBS and Slurm, the environment of local processes and YARN containers.  That PBS and Slurm read `-v`/`--export` as a
  list separated by commas, and that sh reads a line of plain characters as its words, is assumed.
* `Manifest_Model`: the objects made by the Kubernetes controller (pods, secret, service, routes, with labels and owners)
  and by the backend (cluster object without its spec), `get_cluster_key`, `on_cluster_heartbeat` and `stop_cluster` of the
  backend up to the patch they send.  Cores are rationals, secrets are their base64 text.  That Kubernetes selects by
  equal labels, takes the last of several entries of a variable, mounts a secret's entries as files, reads decimal
  quantities and removes objects without owners, and that Traefik compares prefixes and server names, is assumed.
* `Files_Model`: `setup_working_directory`, `cleanup_working_directory`, `set_file_permissions`, `do_start_cluster`,
  `do_stop_cluster` of the local backend; `launcher.py` and `start_job`/`stop_job` of the batch backends; the localized
  files of YARN.  A file system is a map from absolute paths; each operation may fail at any point.  Left out: symbolic
  links, missing parents in `os.makedirs`, sudo.  That a process looks up relative paths in its working directory, that
  PBS copies the staged files there, and that YARN puts localized files there, is assumed.
* `Proc_Model`: `_signal`, `is_running`, `wait_is_shutdown`, `stop_process`.  Time is in tenths of a second; a sleep takes
  exactly its time; who holds the process id is an arbitrary function of time.
* `Addr_Model`: the addresses in `Gateway.__init__`, `ClusterReport._from_json` and `comm.py`, with `urlparse`, `.hostname` and
  `.port` of CPython for ASCII text without control characters and blanks.  Left out: the check of what stands in
  brackets, templates in configured addresses, name resolution, TLS itself.
* `Session_Model`: `_request` of the client, its three authentications, the server's three authenticators (pykerberos as
  arbitrary functions), on top of `Api_Model`.  Left out: connection errors and timeouts, expiry within the cookie jar (the
  cookie sent with each request is arbitrary among those handed out to the user).
* `Super_Model`: `start_proxy_process`, `monitor_proxy_process`, start and end of `Proxy`, `awaitShutdown`.  Time is in half
  seconds; a sleep takes exactly its time; a process ends whenever it likes.  Left out: an externally managed proxy.
* `ProxyCmd_Model`: `normalize_address` with `int`, the traits of `Proxy` with their defaults, `get_start_command`, `get_start_env`,
  `_api_url_default`, the token check of `routes_handler`; in Go `main`, `ParseLevel`, `parseOne` of package `flag` and the
  choice of listeners in `run`.  Text is ASCII.  That Go's client refuses control characters in a header and trims it, and
  which sockets of one machine exclude each other, is assumed; `url.Parse` is an arbitrary function.
* `Wire_Model`: the lines written by `routes_handler` with `json.dumps`, `bufio.Scanner` with its limit, `json.Unmarshal` into
  `EventsMsg`, `evIter`, and the loop of `watchRoutes` when a line is too long.  Left out of the decoder: numbers with fraction
  or exponent and bytes beyond ASCII, which `json.dumps` does not write.  The answer with the whole table is read without
  limit (`ProxyLog_Model`).
* `App_Model`: the life of the gateway process (app.py 193-262, utils.py 293-315, db_base.py 822-905, the reconcilers' turns,
  what YARN's and the in-process backend's setup make).  A turn is one step; workers, heartbeats and checks are left out here;
  not for the Kubernetes backend; failures of ISession, IReconcilers, ILoad and of database calls are left out.
* `World_Model`: which calls of `add_route`/`remove_route` the steps of `Gateway_Model` make (`_check_cluster_proxied`,
  `_cluster_to_stopped`, `Proxy.setup`), their effect in `ProxyLog_Model`, and what connections and requests meet in the proxy's
  tables (`Sni_Model`, `Router_Model`).  A child proxy is replaced together with the gateway; the calls made by one turn of
  a reconciler happen in one step (they do not suspend); the length of lines (C106) and the start command (C101) are left out.
* `Fleet_Model`: how the heartbeats of `Report_Model` reach `Gateway_Model` and how their answers come back: each may be
  lost, delayed or overtaken; a message may be handled although its sender has given up.  A scheduler beats only after the
  cluster was recorded; only workers the gateway has named connect.  Timing (`heartbeat_period`), and the death of the
  scheduler process, are events of `Gateway_Model` only.
* `Ask_Model`: requests are authenticated and well-typed (C35, C39); the token and the scheduler's address are right (C36,
  C110); a message may be handled at any time after it was sent, once; an answer is lost when the attempt is given up.
  The scheduler's process does not restart.  `Adapt_Model`: a request that waits for the adaptive loop to end is a state of its own.
* `KFleet_Model`: one cluster in phase Running with a running scheduler that does not end; of a heartbeat only `count`; the size
  changes arbitrarily.  A patch that changes nothing makes no new version of the object.  The work queue is that of C01-C05 for
  one key (queued, being processed, scheduled); reconciliations do not raise (`Kube_Model` has failing requests as values).
  Create and delete requests of a controller that is restarted have no effect after the restart.
* `Visit_Model`: a request is handled at one moment (for `?wait` at two: before and after the wait), its answer arrives later or
  never.  `_wait_for_start`'s `except TimeoutError` (client.py 573-576) is the builtin; before Python 3.11 the timeouts of
  asyncio and aiohttp are other classes, such a timeout is then `VBreak`.  Not modelled: what the client does with the scheduler
  after the call, the retry of the requests themselves, authentication (C33-C38), and that `new_cluster()` checks the
  options (C40-C43): a refusal is the event `VRefuse`.
* `KApi_Model`: the routes `create_cluster`, `get_cluster`, `delete_cluster` and `start_cluster`, `stop_cluster`, `get_cluster`,
  `sync_cluster` of the Kubernetes backend.  The API server is a list of versions of each object; the controller may write
  any status that follows the last one (C52) and never another user.  The watch shows the changes of an object in order, or
  skips some when it lists again (C53).  A call to the API server is done, or done with its answer lost, or not done.  After a
  restart the objects are listed before requests are served (`Informer.start`).  Not modelled: authentication (C33-C38; the
  user of a request is given), the options of a POST (C40-C43), the heartbeat and adapt requests.
* `Fault_Model`: every event carries one outcome for each database call that it makes, in order.  Where the exceptions go is
  modelled: a request is answered 500, the periodic tasks log and go on, the reconciler retries with a delay, the handlers of
  the two start operations run (and may fail themselves).  The clock of the delays is an argument of the event.  A crash between two database
  calls of one event is `Before` for the second call followed by `ERestart`.  Not modelled: a database that fails while it is being
  loaded (the process does not start), and one difference after a rolled back transaction: `status=target` is
  computed from the object in memory by the code and from the row by the model; no theorem depends on it (the positive ones
  exclude it or speak of memory only, the counterexamples avoid it).
* `KLife_Model`: `Phase_Model` with `reconciler_loop`, `on_cluster_update`, `on_pod_update` and `on_pod_delete` for the scheduler's pod,
  `on_endpoints_update`, `stopped_clusters`, and the work queue for one key.  A run may use any value the caches of pod and endpoints had
  since it began.  Events of workers' pods only put the key.
* `Stamp_Model` writes out the parts of CPython's `datetime` that the two functions use (`_ymd2ord`, `_ord2ymd`, the range checks); `timestamp()` of
  whole seconds is exact in floating point up to the year 9999. Only texts of the form `YYYY-MM-DDxhh:mm:ss` and one more character are read.
* `Watch_Model`: of the requests for routes only where their tasks are; a request is a task of its own; a cancelled task gets CancelledError at its
  next turn, wherever it waits. What the batches say is `ProxyLog_Model`, `task_pool.close()` is `Super_Model`.
* `Comm_Model`: `BaseHandler`, `CommHandler`, `make_gateway_client`, `dask_setup` of the scheduler's preload module and the request of
  `forward_message_to_scheduler`. Tornado answers 403 to a POST without a user; that scale and adapt return is assumed here.
* `Chart_Model`: `resources/helm/dask-gateway/templates/gateway/configmap.yaml` (what is forwarded, `get_property`, image, cluster
  options, authentication, extraConfig), `secret.yaml` and the token's environment variable in `deployment.yaml`. toJson and
  json.loads are taken to be inverse; log level, addresses, YAML's own syntax and the other templates of the chart are not modelled.
* `Ids_Model`: `make_preexec_fn`, `getpwnam` and their use in `start_process`; the kernel's setuid, setgid, setgroups, setresuid and
  setresgid as in their manual pages. Capabilities are those of effective user 0; set-user-ID programs are left out.
* `Accept_Model`: `run`'s choice of listeners, `Forwarder`, `handleConnection`, `runTCP` as a process with a limit on descriptors; what
  ReadSNI and dialling return are inputs. The HTTP server is only what takes and closes connections; other accept errors are left out.
* `Fit_Model`: the name helpers, gateway service, route and middlewares, the addresses of both configurations, pod labels, Traefik's
  service and arguments; Traefik's providers, rule priority, StripPrefix and StripPrefixRegex from its documentation (regular expressions
  of characters, "." and "+" only).
* `Roles_Model`: names of all objects of a release, roles, bindings and accounts of gateway, controller and Traefik, the requests gateway
  and controller send to Kubernetes; Kubernetes' authorisation and Helm's conflict check from their documentation.
* The requests in `Roles_Model` were collected by reading every call of the Kubernetes client in `backend.py` and `controller.py`.
* `Skein_Model`: the caches and calls of the YARN backend; Skein's and YARN's behaviour from their documentation.
* `Template_Model`: format_template and its uses; str.format after CPython's source, fields that are names only.
* `Follow_Model`: `_watch_worker_status` and the widget's status; distributed's worker status messages from its documentation and source.
* `Form_Model`: fields of `Options` with their ipywidgets inputs; one input per field (widgets are cached); NaN and infinities left out.
* `Quit_Model`: `cleanup_lingering_clusters`, `close`, `__del__` for all objects of a program, one call after the other.
* `Choose_Model`: `_submit` up to the request, `_cluster_options`, `Options.update`.
* `Keyword_Model`: the signatures between a program's keyword arguments and `_submit`.
* `Access_Model`: `Options` of the client as a mapping and by attribute.
* In the gateway model a crash can happen between any two atomic steps; one step contains no `await` that really
  suspends, so this is everywhere except between two consecutive database statements of the same step.

## Assumptions that appear in theorem statements

* `ids_ok cf h`: primary keys are never reused (`fresh_ids`), or the history has no restart.  SQLite reuses ids after deleting the newest row; `C27_memory_is_database_refuted` shows what
  happens then.
* `setup_ok wc h` (C110–C112): cluster names (uuid4) are distinct, not empty, without slash; the prefix is normalised; the
  buffer holds a record header; `ids_ok`.  `young_proxy wc h`: the proxy is the gateway's child or was started after it.
* `fids_ok h`, `in_order n h`, `none_left h n c` (C113–C115): `ids_ok` of the gateway's part; the heartbeats of cluster `n`
  that are not lost are handled in the order in which they were sent; no worker left as announced since the gateway learnt of the newest size.
* `answered s n`, `nothing_left s n`, `no_request n h`, `returned r h` (C116, C117): all requests so far were answered; no message
  of them is under way or waiting; no request for cluster `n` in `h`; call `r` returned in `h` without an exception.
* `told h`, `at_rest s` (C119): the heartbeat with the present size led to a patch and none was handled after it; the controller has
  seen all versions and pod events, has no run going on, queued or scheduled, and awaits no creation or deletion.
  `calm (kube_part h)` (C120): as in C67.
* `vendless`, `vfair`, `served`, `first_life` (C123): no restart from here on and the gateway is not shutting down; reconcilers get
  their turns, backend operations end, the check of timeouts runs again and again at ever later times; what the call waits
  for comes some day, and TimeoutError not for ever; no restart before either.
* `life_ok`: one life of the process, or no transaction is rolled back after memory changed and no primary key is used twice.
  `clean_ok`: failing calls raise before they change anything.  `only P h`: every failing call of `h` is of the kind `P`
  (`kept`: not rolled back after memory changed; `clean`).
* `caught_up` (C128): the watch and the loop have processed the object's last version.  `same_process` (C126): no restart of
  the gateway between the two moments.
* `fendless`, `ffair` (C140): as `endless` and `fair`; in addition, failing calls raise before they change anything and some day
  none fails any more; the timer of an item that was put back goes off some day, not before its time.  `healed`: since the start or since
  the last restart no call raised after a change; before that restart no transaction was rolled back.
* `endless`, `fair`, `healthy` of `KLife_Spec` (C141, C142): the controller is not restarted any more; the informer sees every version, reconcilers
  take queued keys, runs end and timers run out some day; from some event on the API server creates, deletes and patches what it is asked to.
* `endless`, `served`, `fair`, `steady`, `smooth` of `KFlow_Spec` (C143): informers, reconcilers, timers and the API server go on; pods get a
  status that says something and do not vanish before they are known; no restart and no new size any more; for `smooth` pods are made and stay.
* `one_life h`: no restart in the history.
* `endless`, `fair` (C81–C83): one process that does not die and whose queue is not closed; at least one reconciler,
  each gets its turns again and again, and each backend operation ends or raises some day.  `C81_runs_exist`: such
  runs exist from every reachable state, beginning with any events.
