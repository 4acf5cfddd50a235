(** Model of the way keyword arguments take from a program to the request that
    starts a cluster: dask-gateway/dask_gateway/client.py Gateway.submit (540-561),
    sync (336-338: func and the arguments after it), new_cluster (618-652),
    GatewayCluster.__init__ (805-827), _init_internal (870-909) and the call of
    _submit (948-950), whose own arguments are those of 523.

    The values ([A]) are any Python objects.  Left out: positional arguments a
    program gives besides the object itself, what the named arguments do. *)
From Coq Require Import Ascii String.
From stdpp Require Import prelude.
From Verif Require Import Router_Model ProxyLog_Model.

Section keyword.
Context {A : Type}.
Local Notation kwargs := (list (bytes * A)).
(** Calling a Python function with **kw.  [bound]: the arguments the call gives
    itself, by position or by name; [params]: the names the function takes; the rest
    goes into its own **kwargs.  [None]: TypeError (multiple values). *)
Definition call (bound params : list bytes) (kw : kwargs) : option kwargs :=
  if existsb (fun kv => bool_decide (fst kv ∈ bound)) kw then None
  else Some (filter (fun kv => fst kv ∉ params) kw).

Definition n_self : bytes := b_ "self".
Definition n_func : bytes := b_ "func".
Definition n_opts : bytes := b_ "cluster_options".
Definition n_soc : bytes := b_ "shutdown_on_close".
(** The arguments of GatewayCluster.__init__ (806-815). *)
Definition init_params : list bytes :=
  [b_ "address"; b_ "proxy_address"; b_ "public_address"; b_ "auth"; n_opts; n_soc; b_ "asynchronous"; b_ "loop"].
(** self._submit(cluster_options=..., **kw) (523, 948-950). *)
Definition to_submit (kw : kwargs) : option kwargs := call [n_self; n_opts] [n_self; n_opts] kw.

(** gateway.submit( **kw) (540, 561): through sync(self, func, ...) (336). *)
Definition submit_call (kw : kwargs) : option kwargs :=
  k1 ← call [n_self] [n_self; n_opts] kw;
  k2 ← call [n_self; n_func; n_opts] [n_self; n_func] k1;
  to_submit k2.
(** gateway.new_cluster( **kw) (618, 641-652). *)
Definition new_cluster_call (kw : kwargs) : option kwargs :=
  k1 ← call [n_self] [n_self; n_opts; n_soc] kw;
  k2 ← call (n_self :: init_params) (n_self :: init_params) k1;
  to_submit k2.
(** GatewayCluster( **kw) (805-827). *)
Definition class_call (kw : kwargs) : option kwargs :=
  k1 ← call [n_self] (n_self :: init_params) kw;
  to_submit k1.
End keyword.
