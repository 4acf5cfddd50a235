(** Properties C40-C43: cluster options.  [fs] is the list of fields an operator
    declared, with distinct names; [float_of] is Python's float(int), whatever it
    rounds to; [V] are Python values and [J] embeds the JSON ones. *)
From Coq Require Import Ascii String ZArith QArith Qcanon.
From stdpp Require Import prelude.
From Verif Require Import Router_Model ProxyLog_Model Json_Model Options_Model Options_Spec Options_Proofs.
Local Open Scope Z_scope.

(** One field of each kind: an image name, a flag, a core count between 1 and 8, a
    memory size of at least 0.5, a size to choose, and an environment. *)
Definition ex_float (z : Z) : option fl := Some (of_Z z).
Definition half : fl := Fin (Q2Qc (1 # 2)).
Definition ex_make (n : string) (d : decl json) : list (field json) := match make ex_float (b_ n) None d with Some f => [f] | None => [] end.
Definition sizes : list (bytes * json) := [(b_ "small", JInt 2); (b_ "large", JInt 16)].
Definition ex_fs : list (field json) :=
  ex_make "image" (DString (JStr (b_ "base"))) ++ ex_make "debug" (DBool (JBool false)) ++ ex_make "cores" (DInt (JInt 1) (JInt 1) (JInt 8)) ++
  ex_make "mem" (DFloat (JInt 2) (JFloat half) JNull) ++ ex_make "size" (DSelect sizes JNull) ++ ex_make "env" (DMapping JNull).
Lemma ex_nodup : NoDup (names ex_fs) /\ length ex_fs = 6%nat.
Proof. split; [|done]. apply (bool_decide_unpack _); vm_compute; done. Qed.
Lemma ex_declared : Forall (declared ex_float) ex_fs.
Proof.
  repeat (apply Forall_cons; split; [|]); [| | | | | |by apply Forall_nil].
  - by exists (b_ "image"), None, (DString (JStr (b_ "base"))).
  - by exists (b_ "debug"), None, (DBool (JBool false)).
  - by exists (b_ "cores"), None, (DInt (JInt 1) (JInt 1) (JInt 8)).
  - by exists (b_ "mem"), None, (DFloat (JInt 2) (JFloat half) JNull).
  - by exists (b_ "size"), None, (DSelect sizes JNull).
  - by exists (b_ "env"), None, (DMapping JNull).
Qed.
Definition ex_req : json := JObj [(b_ "cores", JInt 4); (b_ "size", JStr (b_ "large"))].
Definition ex_res : list (bytes * json) :=
  [(b_ "image", JStr (b_ "base")); (b_ "debug", JBool false); (b_ "cores", JInt 4); (b_ "mem", JFloat (of_Z 2)); (b_ "size", JStr (b_ "large")); (b_ "env", JObj [])].

(** C40. A request is accepted exactly when it is an object whose keys are declared
    and every field has a right value, given or default; the answer has exactly the
    declared names, each with that value ([normal]: an int given for a float field
    becomes a float, anything else is kept). *)
Theorem C40_parse_iff : forall float_of (V : Type) (fs : list (field V)) j res, NoDup (names fs) ->
  parse_options float_of fs j = Some res <->
  exists r, j = JObj r /\ (forall k, k ∈ map fst r -> k ∈ names fs) /\ map fst res = names fs /\
    forall f, f ∈ fs -> exists v, dget (f_name f) res = Some v /\ fits (f_kind f) v /\ normal float_of (f_kind f) (given f r) v.
Proof. exact @parse_iff. Qed.
Print Assumptions C40_parse_iff.
(** Parsing the result again changes nothing. *)
Theorem C40_again : forall float_of (V : Type) (fs : list (field V)) j res, NoDup (names fs) ->
  parse_options float_of fs j = Some res -> parse_options float_of fs (JObj res) = Some res.
Proof. exact @parse_again. Qed.
Print Assumptions C40_again.
(** Asking for nothing is always accepted and gives the defaults. *)
Theorem C40_defaults : forall float_of (V : Type) (fs : list (field V)), NoDup (names fs) -> Forall (declared float_of) fs ->
  exists res, parse_options float_of fs (JObj []) = Some res /\
  forall f, f ∈ fs -> exists v, dget (f_name f) res = Some v /\ normal float_of (f_kind f) (f_default f) v.
Proof. exact @parse_empty. Qed.
Print Assumptions C40_defaults.
Example C40_example : parse_options ex_float ex_fs ex_req = Some ex_res /\
  parse_options ex_float ex_fs (JObj [(b_ "cores", JInt 9)]) = None /\ parse_options ex_float ex_fs (JObj [(b_ "gpus", JInt 1)]) = None /\
  parse_options ex_float ex_fs (JObj [(b_ "size", JStr (b_ "huge"))]) = None /\ parse_options ex_float ex_fs (JList []) = None.
Proof. vm_compute. done. Qed.

(** C41. From the server's specification the client builds an option set, and
    whatever sequence [l] of assignments is tried on it (refused ones change
    nothing), the request made from it is accepted and kept unchanged. *)
Theorem C41_request : forall float_of (V : Type) (fs : list (field V)), NoDup (names fs) -> Forall (declared float_of) fs ->
  exists o, options_from_spec float_of (get_specification fs) = Some o /\
  forall l, let req := as_request (osets float_of l o) in parse_options float_of fs (JObj req) = Some req /\ map fst req = names fs.
Proof. exact @client_server_agree. Qed.
Print Assumptions C41_request.
(** At any moment an assignment is refused by the client exactly if the server would
    refuse the value, and is stored as the server would store it. *)
Theorem C41_assignment : forall float_of (V : Type) (fs : list (field V)) o l k x (f : field V), NoDup (names fs) -> Forall (declared float_of) fs ->
  options_from_spec float_of (get_specification fs) = Some o -> f ∈ fs -> f_name f = k ->
  match oset float_of k x (osets float_of l o) with
  | Some o' => exists v, validate float_of (f_kind f) x = Some v /\ dget k (as_request o') = Some v
  | None => validate float_of (f_kind f) x = None
  end.
Proof. exact @client_set. Qed.
Print Assumptions C41_assignment.
Example C41_example : exists o, options_from_spec ex_float (get_specification ex_fs) = Some o /\
  as_request (osets ex_float [(b_ "cores", JInt 4); (b_ "cores", JInt 100); (b_ "size", JStr (b_ "large"))] o) = ex_res /\
  oset ex_float (b_ "cores") (JInt 100) o = None.
Proof. eexists. split; [vm_compute; reflexivity|]. vm_compute. done. Qed.

(** C42. Integer options: an accepted value is within the declared bounds. *)
Theorem C42_integer : forall float_of (V : Type) name target d mn mx (f : field V) x v,
  make float_of name target (DInt d mn mx) = Some f -> validate float_of (f_kind f) x = Some v ->
  exists z, int_of v = Some z /\ (forall m, int_of mn = Some m -> m <= z) /\ (forall m, int_of mx = Some m -> z <= m).
Proof. exact @int_in_bounds. Qed.
Print Assumptions C42_integer.
(** Float options: as soon as neither the value nor the bound is NaN (the missing
    part: NaN passes every check, see below). *)
Theorem C42_float_partial : forall float_of (V : Type) name target d mn mx (f : field V) x v,
  make float_of name target (DFloat d mn mx) = Some f -> validate float_of (f_kind f) x = Some v ->
  exists g, v = JFloat g /\ (g <> NaN ->
    (forall m, to_float float_of mn = Some m -> m <> NaN -> le_fl m g) /\ (forall m, to_float float_of mx = Some m -> m <> NaN -> le_fl g m)).
Proof. exact @float_in_bounds. Qed.
Print Assumptions C42_float_partial.
(** NaN is accepted by a float option declared between 0 and 1. *)
Theorem C42_nan_refuted : exists name target d mn mx (f : field json) x v lo hi,
  make ex_float name target (DFloat d mn mx) = Some f /\ validate ex_float (f_kind f) x = Some v /\
  to_float ex_float mn = Some lo /\ to_float ex_float mx = Some hi /\ lo = Fin 0 /\ hi = Fin 1 /\
  ~ exists g, v = JFloat g /\ le_fl lo g /\ le_fl g hi.
Proof.
  exists (b_ "x"), None, (JInt 0), (JInt 0), (JInt 1), (Field (b_ "x") (b_ "x") (JInt 0) (KFloat (Some (Fin 0)) (Some (Fin 1)))), (JFloat NaN), (JFloat NaN), (Fin 0), (Fin 1).
  split; [vm_compute; done|]. split; [vm_compute; done|]. split; [vm_compute; done|]. split; [vm_compute; done|]. split; [done|]. split; [done|].
  intros (g & [= <-] & H & _). done.
Qed.
Print Assumptions C42_nan_refuted.
Example C42_example : exists f : field json, make ex_float (b_ "cores") None (DInt (JInt 1) (JInt 1) (JInt 8)) = Some f /\
  validate ex_float (f_kind f) (JInt 8) = Some (JInt 8) /\ validate ex_float (f_kind f) (JInt 9) = None /\ validate ex_float (f_kind f) (JInt 0) = None.
Proof. eexists. split; [vm_compute; reflexivity|]. vm_compute. done. Qed.

(** C43. Without a handler: every trait that is some field's target has that
    field's (accepted) value, as the trait itself converts it, and every other trait
    the operator's setting. *)
Theorem C43_configuration : forall float_of (V : Type) (J : json -> V) (U : Type) traits dflt coerce (fs : list (field V)) (u : U) j opts conf,
  NoDup (names fs) -> NoDup (targets fs) -> NoDup traits ->
  process float_of J traits dflt coerce None fs u j = Some (opts, conf) ->
  parse_options float_of fs j = Some opts /\ map fst conf = traits /\
  (forall f, f ∈ fs -> f_target f ∈ traits -> exists v w x, dget (f_name f) opts = Some v /\ means J (f_kind f) v w /\
     coerce (f_target f) w = Some x /\ dget (f_target f) conf = Some x) /\
  (forall t, t ∈ traits -> t ∉ targets fs -> dget t conf = Some (dflt t)).
Proof. exact @process_spec. Qed.
Print Assumptions C43_configuration.
(** What a choice of a Select stands for: the value listed with it, the last one if
    it is listed several times; nothing that is not listed is accepted. *)
Theorem C43_select : forall float_of (V : Type) (J : json -> V) name target opts d (f : field V) s w, make float_of name target (DSelect opts d) = Some f ->
  (validate float_of (f_kind f) (JStr s) = Some (JStr s) /\ transform J (f_kind f) (JStr s) = Some w) <->
  exists l1 l2, opts = l1 ++ (s, w) :: l2 /\ s ∉ map fst l2.
Proof. exact @select_value. Qed.
Print Assumptions C43_select.
(** With a handler: the configuration is made from its result, and it is given the
    declared options under their targets. *)
Theorem C43_handler : forall float_of (V : Type) (J : json -> V) (U : Type) traits dflt coerce (fs : list (field V)) (u : U)
  (h : list (bytes * V) -> U -> option (list (bytes * V))) j opts conf,
  NoDup (names fs) -> NoDup (targets fs) ->
  process float_of J traits dflt coerce (Some h) fs u j = Some (opts, conf) ->
  parse_options float_of fs j = Some opts /\
  exists t ov, h t u = Some ov /\ map fst t = targets fs /\
    (forall f, f ∈ fs -> exists v w, dget (f_name f) opts = Some v /\ means J (f_kind f) v w /\ dget (f_target f) t = Some w) /\
    map fst conf = traits /\
    (NoDup traits -> forall k, k ∈ traits -> match dget k ov with
       | Some w => exists x, coerce k w = Some x /\ dget k conf = Some x
       | None => dget k conf = Some (dflt k)
       end).
Proof. exact @process_handler. Qed.
Print Assumptions C43_handler.
(** An option that is not declared gets the request refused. *)
Theorem C43_undeclared : forall float_of (V : Type) (J : json -> V) (U : Type) traits dflt coerce handler (fs : list (field V)) (u : U) r k,
  k ∈ map fst r -> k ∉ names fs -> process float_of J traits dflt coerce handler fs u (JObj r) = None.
Proof. exact @undeclared_refused. Qed.
Print Assumptions C43_undeclared.
(** Here the traits are cores, size and an idle timeout; size large means 16. *)
Example C43_example : NoDup (targets ex_fs) /\
  process ex_float Datatypes.id [b_ "cores"; b_ "size"; b_ "idle"] (fun _ => JInt 7) (fun _ v => Some v) None ex_fs tt ex_req =
    Some (ex_res, [(b_ "cores", JInt 4); (b_ "size", JInt 16); (b_ "idle", JInt 7)]).
Proof. split; [apply (bool_decide_unpack _); vm_compute; done|]. vm_compute. done. Qed.
