(** Vocabulary for C87-C91. *)
From Coq Require Import Ascii String ZArith QArith.
From stdpp Require Import prelude.
From Verif Require Import Router_Model ProxyLog_Model Json_Model Util_Model Util_Spec Launch_Model Manifest_Model.
Local Open Scope nat_scope.

(** * Selecting objects by labels. *)
Definition path (l : list string) : list bytes := map b_ l.
Definition carries (obj : json) (k v : bytes) : Prop :=
  part (path ["metadata"; "labels"]%string ++ [k]) obj = Some (JStr v).
(** A selector given as pairs: all of them must be there. *)
Definition selected_by (sel : list (bytes * bytes)) (obj : json) : Prop := forall k v, (k, v) ∈ sel -> carries obj k v.
(** A service sends connections to the pods (of its namespace) with the labels of its
    selector; a service without selector has no pods. *)
Definition serves (service pod : json) : Prop :=
  exists sel, part (path ["spec"; "selector"]%string) service = Some (JObj sel) /\ sel <> [] /\
    forall k v, (k, v) ∈ sel -> exists s, v = JStr s /\ carries pod k s.
(** The labels the gateway uses, and a configuration that leaves them alone. *)
Definition own_labels : list bytes := map b_ ["gateway.dask.org/instance"; "gateway.dask.org/cluster"; "app.kubernetes.io/component"]%string.
Definition keeps_labels (cf : kconf) (r : role) : Prop := forall k, k ∈ own_labels -> k ∉ map fst (r_labels (rconf_of cf r)).

(** * Routing. *)
Definition starts (p s : bytes) : Prop := exists rest, s = p ++ rest.
Definition item_of (k : string) (obj x : json) : Prop := exists l, field k obj = Some (JList l) /\ x ∈ l.
Definition target (route : json) (ns service : bytes) (port : Z) : Prop :=
  exists s, item_of "services" route s /\ field "namespace" s = Some (JStr ns) /\ field "name" s = Some (JStr service) /\ field "port" s = Some (JInt port).
(** A web request for a path goes to a service, a TLS connection with a server name
    goes to a service (unopened). *)
Definition web_to (obj : json) (p : bytes) (ns service : bytes) (port : Z) : Prop :=
  exists spec route prefix, field "spec" obj = Some spec /\ item_of "routes" spec route /\
    field "match" route = Some (JStr (b_ "PathPrefix(`" ++ prefix ++ b_ "`)")) /\ starts prefix p /\ target route ns service port.
Definition tcp_to (obj : json) (name : bytes) (ns service : bytes) (port : Z) : Prop :=
  exists spec route, field "spec" obj = Some spec /\ part (path ["tls"; "passthrough"]%string) spec = Some (JBool true) /\ item_of "routes" spec route /\
    field "match" route = Some (JStr (b_ "HostSNI(`" ++ name ++ b_ "`)")) /\ target route ns service port.
(** Namespaces are DNS labels, cluster names are hexadecimal. *)
Definition name_ok (n : bytes) : Prop := n <> [] /\ "."%char ∉ n /\ slash ∉ n.

(** * The container.  Sidecars may be added, nothing may be replaced. *)
Definition adds_only (key : string) (extra : list (bytes * json)) : Prop :=
  match dget (b_ key) extra with None | Some (JList _) => True | _ => False end.
Definition leaves (key : string) (extra : list (bytes * json)) : Prop := dget (b_ key) extra = None.
Definition main_container (pod : json) : option json :=
  match part (path ["spec"; "containers"]%string) pod with Some (JList (x :: _)) => Some x | _ => None end.
(** The value of a variable in a container: the last entry counts. *)
Definition entry_value (e : json) : option json := match field "value" e with Some v => Some v | None => field "valueFrom" e end.
Fixpoint effective (k : bytes) (l : list json) : option json :=
  match l with
  | [] => None
  | e :: l' => match effective k l' with
               | Some v => Some v
               | None => match field "name" e with Some (JStr n) => if decide (n = k) then entry_value e else None | _ => None end
               end
  end.
Definition variable (k : bytes) (pod : json) : option json :=
  match x ← main_container pod; field "env" x with Some (JList l) => effective k l | _ => None end.
(** The extra configuration of the container says nothing about variable [k]. *)
Definition quiet (k : bytes) (extra : list (bytes * json)) : Prop :=
  match dget (b_ "env") extra with None => True | Some (JList l) => effective k l = None | _ => False end.
(** The file at a path: of a mounted volume that is a secret.  [mounted pod dir name]: the
    first volume mounted at [dir] is the secret [name]. *)
Definition find_item (k : string) (v : bytes) (l : list json) : option json :=
  List.find (fun x => match field k x with Some (JStr s) => bool_decide (s = v) | _ => false end) l.
Definition mounted (pod : json) (dir : bytes) : option bytes :=
  match
    c ← main_container pod; ms ← field "volumeMounts" c; vs ← part (path ["spec"; "volumes"]%string) pod;
    match ms, vs with
    | JList ms, JList vs =>
        m ← find_item "mountPath" dir ms; n ← field "name" m;
        match n with JStr n => v ← find_item "name" n vs; s ← field "secret" v; field "secretName" s | _ => None end
    | _, _ => None
    end
  with Some (JStr s) => Some s | _ => None end.
(** The file [dir ++ key] of a pod is entry [key] of [secret]. *)
Definition file_is (pod secret : json) (p : bytes) (content : bytes) : Prop :=
  exists dir key name, p = dir ++ key /\ mounted pod dir = Some name /\ part (path ["metadata"; "name"]%string) secret = Some (JStr name) /\
    part [b_ "data"; key] secret = Some (JStr content).

(** * Quantities: how Kubernetes reads "12.345". *)
Fixpoint digits (acc : Z) (l : bytes) : option Z :=
  match l with
  | [] => Some acc
  | x :: l' => let n := Z.of_nat (nat_of_ascii x) in
               if (48 <=? n)%Z && (n <=? 57)%Z then digits (10 * acc + (n - 48))%Z l' else None
  end.
Definition quantity (s : bytes) : option Q :=
  match split_dot s with
  | [a; b] => x ← digits 0 a; y ← digits 0 b; Some (inject_Z x + inject_Z y / inject_Z (10 ^ Z.of_nat (length b)))%Q
  | [a] => x ← digits 0 a; Some (inject_Z x)
  | _ => None
  end.

(** * Owners.  Objects on the server have uids; the garbage collector removes an object
    that names owners of which none is left.  [settled]: it has nothing to do. *)
Definition owner_uids (obj : json) : list json :=
  match part (path ["metadata"; "ownerReferences"]%string) obj with
  | Some (JList l) => omap (field "uid") l
  | _ => []
  end.
Definition settled (objs : list (bytes * json)) : Prop :=
  forall u obj, (u, obj) ∈ objs -> owner_uids obj = [] \/ exists v, JStr v ∈ owner_uids obj /\ v ∈ map fst objs.

(** A Python dict: keys are distinct.  The extra configuration for the pods of a role. *)
Definition is_dict {V} (d : list (bytes * V)) : Prop := NoDup (map fst d).
Definition extras_ok (cf : kconf) (r : role) : Prop :=
  is_dict (r_pod (rconf_of cf r)) /\ is_dict (r_container (rconf_of cf r)) /\ adds_only "containers" (r_pod (rconf_of cf r)).
(** The variables the gateway sets in every container, and their values. *)
Definition pod_required (t : ctl) (ns c : bytes) : list (bytes * bytes) :=
  [(b_ "DASK_GATEWAY_API_URL", t_url t); (b_ "DASK_GATEWAY_CLUSTER_NAME", full_name ns c);
   (b_ "DASK_GATEWAY_API_TOKEN", b_ "/etc/dask-credentials/api-token");
   (b_ "DASK_DISTRIBUTED__COMM__TLS__CA_FILE", b_ "/etc/dask-credentials/dask.crt");
   (b_ "DASK_DISTRIBUTED__COMM__TLS__SCHEDULER__CERT", b_ "/etc/dask-credentials/dask.crt");
   (b_ "DASK_DISTRIBUTED__COMM__TLS__SCHEDULER__KEY", b_ "/etc/dask-credentials/dask.pem");
   (b_ "DASK_DISTRIBUTED__COMM__TLS__WORKER__CERT", b_ "/etc/dask-credentials/dask.crt");
   (b_ "DASK_DISTRIBUTED__COMM__TLS__WORKER__KEY", b_ "/etc/dask-credentials/dask.pem")].
(** [word] follows [flag] on the command line. *)
Definition option_is (flag value : bytes) (cmd : list bytes) : Prop := exists pre post, cmd = pre ++ flag :: value :: post.
