(** Specification for C150: a prefix one may choose, and the objects of a cluster in which
    the chart is installed. *)
From Coq Require Import Ascii String ZArith.
From stdpp Require Import prelude.
From Verif Require Import Router_Model ProxyLog_Model Json_Model Launch_Model Manifest_Model Manifest_Spec Fit_Model.
Local Open Scope nat_scope.

(** Letters, digits, "." and "-": the characters of namespaces and cluster names. *)
Definition word (x : ascii) : Prop :=
  let n := nat_of_ascii x in (97 <= n /\ n <= 122) \/ (65 <= n /\ n <= 90) \/ (48 <= n /\ n <= 57) \/ n = 46 \/ n = 45.
Definition named (ns c : bytes) : Prop := name_ok ns /\ name_ok c /\ Forall word ns /\ Forall word c.
(** A prefix: "/", or "/a/b", or "/a/b/", of such characters, "_" and "~".  [stem]: it with no
    slash at its end. *)
Definition plain (x : ascii) : Prop := word x \/ x = slash \/ x = "_"%char \/ x = "~"%char.
Definition stem (p b : bytes) : Prop :=
  (p = [slash] /\ b = []) \/
  exists q, q <> [] /\ head q <> Some slash /\ last q <> Some slash /\ Forall plain q /\ b = slash :: q /\ (p = b \/ p = b ++ [slash]).
(** Kubernetes with the chart installed: its objects are there, and of the routes and
    middlewares with the installation's label all others are of its clusters. *)
Definition installed (r : release) (labels annotations : list (bytes * bytes)) (objs : list (bytes * json)) : Prop :=
  (forall no, no ∈ chart_objects r -> no ∈ objs) /\
  (forall ns obj, (ns, obj) ∈ objs -> field "kind" obj = Some (jstr "IngressRoute") \/ field "kind" obj = Some (jstr "Middleware") ->
     carries obj (b_ "gateway.dask.org/instance") (fullname r) ->
     (ns, obj) ∈ chart_objects r \/ exists c o, named ns c /\ obj = make_ingressroute (controller r labels annotations) c ns o).
