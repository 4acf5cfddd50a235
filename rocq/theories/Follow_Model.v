(** The client's view of a cluster's workers: C/client.py 963-978 (_init_internals), 1012-1013
    (_stop_async), 1118-1145 (_watch_worker_status), 1147-1157 (_widget_status), 1159-1214 (_widget).
    C = dask-gateway/dask_gateway.  The scheduler's side is distributed's (its WorkerStatusPlugin):
    the answer to "subscribe_worker_status" holds the workers of that moment and is sent first,
    then one ["add", ..] or ["remove", ..] for each change, in order, in batches.  A worker's
    description is cut to its threads and memory limit.  The rest of scheduler_info is left out.
    The garbage collection of the cluster object is like [Close]. *)
From stdpp Require Import prelude gmap.
Local Open Scope nat_scope.

Record worker := Worker { w_threads : nat; w_memory : nat }.
#[global] Instance worker_eq_dec : EqDecision worker.
Proof. solve_decision. Defined.
Definition workers := gmap nat worker.                (* address -> description *)
Inductive op := AddOp (a : nat) (w : worker) | RemoveOp (a : nat).
Inductive message := Identity (m : workers) | Batch (l : list op).
(** What the widget shows: _widget_status_template's three numbers (before format_bytes). *)
Record numbers := Numbers { n_workers : nat; n_threads : nat; n_memory : nat }.
(** 1147-1157. *)
Definition widget_status (m : workers) : numbers :=
  Numbers (size m) (map_fold (fun _ w n => w_threads w + n) 0 m) (map_fold (fun _ w n => w_memory w + n) 0 m).
(** The client's task: not started (the answer is awaited), reading, over. *)
Inductive task := Awaiting | Watching | Over.
(** _widget: not made; the status element made but not yet in _status_widget (1179-1212); in it. *)
Inductive widget := NoWidget | Making (v : numbers) | Shown (v : numbers).
Record state := State {
  s_workers : workers;                                 (* the scheduler's *)
  s_buffer : list op;                                  (* its BatchedSend, once subscribed *)
  s_wire : list message;
  s_subscribed : bool;
  c_info : option workers;                             (* scheduler_info.get("workers") *)
  c_task : task;
  c_widget : widget }.
Definition init : state := State ∅ [] [] false None Awaiting NoWidget.

(** 1133-1139: [None] for the KeyError of del, with what was done before. *)
Fixpoint apply (l : list op) (m : workers) : workers * bool :=
  match l with
  | [] => (m, true)
  | AddOp a w :: l => apply l (<[a := w]> m)
  | RemoveOp a :: l => match m !! a with Some _ => apply l (delete a m) | None => (m, false) end
  end.

Inductive event :=
| Arrive (a : nat) (w : worker)                        (* a worker registers at the scheduler *)
| Leave (a : nat)                                      (* the scheduler removes a worker *)
| Subscribe                                            (* the scheduler handles the client's request *)
| Flush                                                (* BatchedSend writes its buffer *)
| Read                                                 (* the client's comm.read returns *)
| Break                                                (* it raises OSError *)
| Close                                                (* _stop_async cancels the task *)
| MakeWidget | KeepWidget.                             (* the user's thread in _widget: 1179, 1212 *)

Definition change (o : op) (m : workers) (s : state) : state :=
  State m (if s_subscribed s then s_buffer s ++ [o] else s_buffer s) (s_wire s) (s_subscribed s) (c_info s) (c_task s) (c_widget s).
Definition step (s : state) (e : event) : state :=
  match e with
  | Arrive a w => match s_workers s !! a with Some _ => s | None => change (AddOp a w) (<[a := w]> (s_workers s)) s end
  | Leave a => match s_workers s !! a with Some _ => change (RemoveOp a) (delete a (s_workers s)) s | None => s end
  | Subscribe =>
      if s_subscribed s then s
      else State (s_workers s) [] [Identity (s_workers s)] true (c_info s) (c_task s) (c_widget s)
  | Flush =>
      match s_buffer s with
      | [] => s
      | l => State (s_workers s) [] (s_wire s ++ [Batch l]) (s_subscribed s) (c_info s) (c_task s) (c_widget s)
      end
  | Read =>
      match c_task s, s_wire s with
      | Awaiting, Identity m :: r => State (s_workers s) (s_buffer s) r (s_subscribed s) (Some m) Watching (c_widget s)
      | Watching, Batch l :: r =>
          match c_info s with
          | Some m =>
              let '(m, ok) := apply l m in
              State (s_workers s) (s_buffer s) r (s_subscribed s) (Some m) (if ok then Watching else Over)
                (match c_widget s with Shown _ => if ok then Shown (widget_status m) else c_widget s | x => x end)   (* 1140-1141 *)
          | None => s
          end
      | _, _ => s
      end
  | Break | Close => State (s_workers s) (s_buffer s) (s_wire s) (s_subscribed s) (c_info s) Over (c_widget s)
  | MakeWidget =>
      match c_widget s, c_info s with
      | NoWidget, Some m => State (s_workers s) (s_buffer s) (s_wire s) (s_subscribed s) (c_info s) (c_task s) (Making (widget_status m))
      | _, _ => s
      end
  | KeepWidget =>
      match c_widget s with
      | Making v => State (s_workers s) (s_buffer s) (s_wire s) (s_subscribed s) (c_info s) (c_task s) (Shown v)
      | _ => s
      end
  end.
Definition run (es : list event) : state := fold_left step es init.
