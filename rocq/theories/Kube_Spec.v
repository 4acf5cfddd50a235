(** Vocabulary for C49-C51 and C67. *)
From Coq Require Import ZArith.
From stdpp Require Import gmap.
From Verif Require Import Trace Kube_Model.
Local Open Scope Z_scope.

Notation history := (list (event * list obs)).
Definition obs_of (h : history) : list obs := concat (map snd h).

(** What a status says about a worker, where it says something. *)
Inductive says : status -> kind -> Prop :=
| says_pending c : says (Status Pending (Some c)) KPending
| says_succeeded c : says (Status Succeeded (Some c)) KSucceeded
| says_failed c : says (Status Failed (Some c)) KFailed
| says_running : says (Status Active (Some Running)) KRunning
| says_exited : says (Status Active (Some (Terminated 0))) KSucceeded.
(** The last thing the handlers were told about pod [p] is [k]. *)
Definition silent_on (p : pod) (o : obs) : Prop :=
  o <> OReset /\ (forall put, o <> OCall (Del p) put) /\ (forall st put k, o = OCall (Upd p st) put -> ~ says st k).
Definition last_said (os : list obs) (p : pod) (k : kind) : Prop :=
  exists o1 st put o2, os = o1 ++ OCall (Upd p st) put :: o2 /\ says st k /\ Forall (silent_on p) o2.
(** The handlers have been told something about [p]. *)
Definition told (os : list obs) (p : pod) : Prop := exists st put k, OCall (Upd p st) put ∈ os /\ says st k.

(** How many pods were asked for. *)
Definition requests (os : list obs) : nat := sum_list_with (fun o => match o with OCreate n => n | _ => 0 end)%nat os.
Definition workers (i : info) : gset pod := running i ∪ pending i.
Definition returned (os : list obs) : Prop := exists b, OReturn b ∈ os.
Definition restarts (e : event) : bool := match e with ERestart _ _ => true | _ => false end.
(** A create request was answered with an error. *)
Definition create_error (e : event) : bool := match e with ECreate Refused | ECreate (Lost _) => true | _ => false end.
(** No restart, no expired expectations, and no request that fails although the pod
    was made. *)
Definition calm_event (e : event) : bool :=
  match e with ERestart _ _ | EReconcile _ true _ | ECreate (Lost _) => false | _ => true end.
Definition calm (h : history) : Prop := Forall (fun eo => calm_event (fst eo) = true) h.
Definition asks_at_most (m : Z) (h : history) : Prop := Forall (fun eo => match fst eo with EReconcile r _ _ => r <= m | _ => True end) h.
(** The pods that exist and have not come to their end. *)
Definition live (s : state) : gset pod := dom (filter (fun x => snd (snd x) = false) (srv s)).
(** Create requests of the running batch_create_pods that are unanswered or unsent. *)
Definition outstanding (s : state) : nat := match pc s with Creating rest _ inflight _ _ => rest + inflight | _ => 0 end.
(** The observations belong to one run of the reconciliation: nothing follows its
    return. *)
Definition one_run (os : list obs) : Prop := forall o1 b o2, os = o1 ++ OReturn b :: o2 -> o2 = [].
(** How many workers are missing. *)
Definition missing (r : Z) (i : info) : Z := Z.max 0 (r - Z.of_nat (size (workers i))).
(** C99: does this event start a run of the reconciliation, and does this observation
    mean that another one is owed (the key is put on the queue, by a handler or because
    of the return value; after a restart every cluster is listed and put there)? *)
Definition starts (eo : event * list obs) : bool := match eo with (EReconcile _ _ _, _ :: _) => true | _ => false end.
Definition wakes (o : obs) : bool := match o with OCall _ true | OReturn true | OReset => true | _ => false end.
(** The cluster is not among the stopped ones. *)
Definition unstopped (e : event) : Prop := match e with EDeliver true _ | ERelist true _ | ERestart true _ => False | _ => True end.
(** Nothing is left to do since the run started with [o], for [r] workers: no run since,
    none owed, none going on. *)
Definition nothing_owed (o : list obs) (h : history) (s : state) : Prop :=
  o <> [] /\ Forall (fun eo => starts eo = false) h /\ Forall (fun eo => unstopped (fst eo)) h /\
  (forall b, b ∈ o ++ obs_of h -> wakes b = false) /\ pc s = Idle.
(** The first answer to the request to delete [p]. *)
Fixpoint answer_to (p : pod) (h : history) : option bool :=
  match h with
  | [] => None
  | (EDelete q ok, _) :: h' => if decide (q = p) then Some ok else answer_to p h'
  | _ :: h' => answer_to p h'
  end.
(** The controller asked for the deletion of [p], and that was accepted. *)
Definition deletion_accepted (p : pod) (h : history) : Prop :=
  exists h1 e o ps h2, h = h1 ++ (e, o) :: h2 /\ ODeletes ps ∈ o /\ p ∈ ps /\ answer_to p h2 = Some true.
