(** Model of how the options of a new cluster are put together by
    dask-gateway/dask_gateway/client.py: _config_cluster_options (492-494,
    [Template_Model.format_values]), _cluster_options (496-503) and the first part
    of _submit (523-538), with Options.update (the MutableMapping mixin: one
    assignment after the other).  new_cluster and GatewayCluster pass their
    cluster_options and the keyword arguments they do not take themselves to
    _submit unchanged (618-652, 806-822, 908-909, 948-950).

    [fs]: the fields declared on the server, whose answer to GET /api/v1/options is
    [get_specification fs].  [cfg]: gateway.cluster.options of the local
    configuration.  Left out: a configuration that is not a mapping, the check
    that cluster_options is an Options (its type here). *)
From Coq Require Import Ascii String ZArith.
From stdpp Require Import prelude.
From Verif Require Import Router_Model ProxyLog_Model Json_Model Template_Model Options_Model.

Section choose.
Context (float_of : Z -> option fl).
(** options.update(d) of an Options (collections.abc; options.py 103-119): the first
    refused assignment raises. *)
Fixpoint oupdate (l : list (bytes * json)) (o : coptions) : option coptions :=
  match l with [] => Some o | (k, x) :: l' => o' ← oset float_of k x o; oupdate l' o' end.
(** d.update(kwargs) of a dict. *)
Definition update (d kw : list (bytes * json)) : list (bytes * json) := foldl (fun d kv => dset (fst kv) (snd kv) d) d kw.

(** Gateway.cluster_options(use_local_defaults) (496-503). *)
Definition cluster_options (env : environ) (cfg : list (bytes * json)) (specs : list json) (local : bool) : result coptions :=
  match options_from_spec float_of specs with
  | None => Raises
  | Some o =>
      if local then bind (format_values env cfg) (fun l => match oupdate l o with Some o' => Gives o' | None => Raises end)
      else Gives o
  end.
(** The options Gateway._submit sends (523-538). *)
Definition submitted (env : environ) (cfg : list (bytes * json)) (opts : option coptions) (kw : list (bytes * json)) : result (list (bytes * json)) :=
  match opts with
  | Some o => Gives (update (as_request o) kw)
  | None => bind (format_values env cfg) (fun l => Gives (update l kw))
  end.
End choose.
