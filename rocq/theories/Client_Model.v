(** Starting and closing a GatewayCluster (C/client.py: _init_internal 870-925,
    _start_internal 935-945, _start_async 947-966, _stop_internal 980-1002, _stop_async
    1004-1020, close 1032-1049), cut at the awaits. *)
From stdpp Require Import base list.

Notation name := positive.
(** _start_task: none; awaiting the answer to the submission; waiting for the cluster to
    run (or connecting to it); done; failed or cancelled. *)
Inductive start := SNone | SSubmitting | SWaiting | SDone | SEnded.
(** _stop_task: none; in _stop_async after the start task's end; over (also with an
    Exception, which is logged); cancelled. *)
Inductive stop := TNone | TClosing | TDone | TCancelled.
(** A call of _stop_internal with its resolved or defaulting [shutdown]: awaiting the
    stop task; past the request to stop the cluster; ended by CancelledError. *)
Inductive call := CWait (sd : option bool) | CDone (sd : option bool) | CDead (sd : option bool).
(** [created]: the cluster the gateway made for the submission.  [starters]: how many
    calls of _start_internal await the start task. *)
Record state := State { cname : option name; created : option name; st : start; starters : nat; sp : stop; calls : list call }.
(** Constructed, or by from_name. *)
Definition init (given : option name) : state := State given None SNone 0 TNone [].
Inductive event :=
| EStart                         (* await cluster *)
| ECreated (n : name)            (* the gateway handles the submission *)
| ESubmitted                     (* its answer arrives *)
| EStarted                       (* the cluster runs and is connected *)
| EFailed                        (* the start raises where it is *)
| EClose (sd : option bool)      (* close(shutdown) *)
| EClosed                        (* the stop task ends *)
| EResume (i : nat)              (* a call goes on after the stop task *)
| ECancel (i : nat).             (* a call is cancelled in its await *)
Inductive obs := ONone | OStop (n : name).

(** The default call of _stop_internal by every call of _start_internal whose start
    task failed or was cancelled (940-943), and the making of the stop task (983-984)
    with its first part (1005-1008). *)
Definition end_start (s : state) : state :=
  State (cname s) (created s) SEnded 0 (match sp s with TNone => if decide (starters s = 0) then TNone else TClosing | t => t end) (calls s ++ replicate (starters s) (CWait None)).
Definition begin_stop (s : state) : state :=
  match sp s with
  | TNone =>
    let s' := State (cname s) (created s) (st s) (starters s) TClosing (calls s) in
    match st s with SSubmitting | SWaiting => end_start s' | _ => s' end
  | _ => s
  end.
(** [soc]: shutdown_on_close; [asyn]: asynchronous mode. *)
Definition step (soc asyn : bool) (s : state) (e : event) : state * obs :=
  match e with
  | EStart =>
    match st s with
    | SNone =>
      match sp s with
      | TNone => (State (cname s) (created s) (match cname s with None => SSubmitting | Some _ => SWaiting end) 1 (sp s) (calls s), ONone)
      | _ => (State (cname s) (created s) SDone 0 (sp s) (calls s), ONone)        (* closing or closed (948-949) *)
      end
    | SSubmitting | SWaiting => (State (cname s) (created s) (st s) (S (starters s)) (sp s) (calls s), ONone)
    | SDone => (s, ONone)
    | SEnded => (begin_stop (State (cname s) (created s) (st s) 0 (sp s) (calls s ++ [CWait None])), ONone)
    end
  | ECreated n => match st s, created s with SSubmitting, None => (State (cname s) (Some n) (st s) (starters s) (sp s) (calls s), ONone) | _, _ => (s, ONone) end
  | ESubmitted =>
    match st s, created s with
    | SSubmitting, Some n => (State (Some n) (created s) SWaiting (starters s) (sp s) (calls s), ONone)
    | _, _ => (s, ONone)
    end
  | EStarted => match st s with SWaiting => (State (cname s) (created s) SDone 0 (sp s) (calls s), ONone) | _ => (s, ONone) end
  | EFailed => match st s with SSubmitting | SWaiting => (end_start s, ONone) | _ => (s, ONone) end
  | EClose sd =>
    match asyn, sp s with
    | false, TDone => (s, ONone)                                                  (* 1044-1045 *)
    | _, _ => let s' := begin_stop s in (State (cname s') (created s') (st s') (starters s') (sp s') (calls s' ++ [CWait sd]), ONone)
    end
  | EClosed => match sp s with TClosing => (State (cname s) (created s) (st s) (starters s) TDone (calls s), ONone) | _ => (s, ONone) end
  | EResume i =>
    match calls s !! i with
    | Some (CWait sd) =>
      let set c := State (cname s) (created s) (st s) (starters s) (sp s) (<[i := c]> (calls s)) in
      match sp s with
      | TDone => (set (CDone sd), match (if default soc sd then cname s else None) with Some n => OStop n | None => ONone end)
      | TCancelled => (set (CDead sd), ONone)
      | _ => (s, ONone)
      end
    | _ => (s, ONone)
    end
  | ECancel i =>
    match calls s !! i with
    | Some (CWait sd) => (State (cname s) (created s) (st s) (starters s) (match sp s with TClosing => TCancelled | t => t end) (<[i := CDead sd]> (calls s)), ONone)
    | _ => (s, ONone)
    end
  end.
