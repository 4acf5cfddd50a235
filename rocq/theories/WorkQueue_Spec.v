(** Vocabulary for the work queue properties: everything here is a function of
    the history of calls and returned values only. *)
From stdpp Require Import base list gmap.
From Coq Require Import ZArith.
From Verif Require Import Trace WorkQueue_Model.

Section spec.
Context {A : Type} `{Countable A}.
Implicit Types (h : history A) (x : A).

(** This step returned item [x] from some get(). *)
Definition hands_out x (eo : event A * option (out A)) : bool :=
  match eo.2 with Some (Returned _ (Item y)) => bool_decide (x = y) | _ => false end.
(** This step is task_done(x). *)
Definition is_done x (eo : event A * option (out A)) : bool :=
  match eo.1 with ETaskDone y => bool_decide (x = y) | _ => false end.

(** Is [x] handed out and not yet marked done after history [h]? *)
Definition held x h : bool :=
  fold_left (fun b eo => if hands_out x eo then true else if is_done x eo then false else b) h false.

(** task_done is only called for items that are handed out. *)
Definition proper_use h : Prop :=
  forall h1 x o h2, h = h1 ++ (ETaskDone x, o) :: h2 -> held x h1 = true.

(** Was [x] handed out in [h]? How often? *)
Definition handed_out x h : Prop := exists eo, eo ∈ h /\ hands_out x eo = true.
Definition count_handed x h : nat := length (List.filter (hands_out x) h).

(** Consecutive backoffs of [x] since the last reset. *)
Definition n_failures x h : nat :=
  fold_left (fun n (eo : event A * option (out A)) => match eo.1 with
      | EPutBackoff _ y => if decide (x = y) then S n else n
      | EResetBackoff y => if decide (x = y) then 0 else n
      | _ => n end) h 0.

(** The delay documented for the n-th consecutive failure (n from 0). *)
Definition documented_delay (base mx : Z) (n : nat) : Z := Z.min (base * 2 ^ Z.of_nat n) mx.

(** A step that asks for [x] to be put, no later than the given time
    ([None]: right now). [h1] is the history before the step. *)
Definition requests (base mx : Z) h1 (e : event A) x (d : option Z) : Prop :=
  match e with
  | EPut y => y = x /\ d = None
  | EPutAfter now y delay => y = x /\ d = Some (now + delay)%Z
  | EPutBackoff now y => y = x /\ d = Some (now + documented_delay base mx (n_failures x h1))%Z
  | _ => False
  end.
Definition is_request x (eo : event A * option (out A)) : bool :=
  match eo.1 with
  | EPut y | EPutAfter _ y _ | EPutBackoff _ y => bool_decide (x = y)
  | _ => false end.
Definition count_requests x h : nat := length (List.filter (is_request x) h).

(** [x] is waiting to be handed out as soon as a consumer asks: it is in line,
    or it is held by a consumer and will re-enter the line at task_done. *)
Definition in_line x (s : wq A) : Prop := x ∈ queue s.
Definition redo_after_done x h (s : wq A) : Prop := held x h = true /\ x ∈ dirty s.
(** A delayed put of [x] is scheduled at [w]. *)
Definition scheduled x (w : Z) (s : wq A) : Prop := timers s !! x = Some w.

(** A call of get() that is suspended with no wake-up on its way. *)
Definition asleep (c : nat) (s : wq A) : Prop := tasks s !! c = Some Blocked.
(** A call of get() whose wake-up is on its way. *)
Definition awake (c : nat) (s : wq A) : Prop := tasks s !! c = Some Woken.
(** A call of get() that has not ended. *)
Definition unfinished (c : nat) (s : wq A) : Prop := is_Some (tasks s !! c).

(** No get() is cancelled in the window between its wake-up being scheduled
    and the call running again. *)
Definition no_cancel_while_waking (s0 : wq A) h : Prop :=
  forall h1 c o h2 m, h = h1 ++ (ECancel c, o) :: h2 -> exec step s0 h1 m -> ~ awake c m.

End spec.
