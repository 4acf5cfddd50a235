(** Vocabulary for C125-C129: requests about clusters on Kubernetes. *)
From stdpp Require Import prelude gmap.
From Verif Require Import Trace View_Model View_Spec KApi_Model.

Notation khistory := (list (kevent * option (nat * answer))).
Definition kreach (h : khistory) (s : kapi) : Prop := exec kstep kinit h s.
Definition kleads (s : kapi) (h : khistory) (s' : kapi) : Prop := exec kstep s h s'.
(** The gateway's process does not start again in [h]. *)
Definition same_process (h : khistory) : Prop := forall o, (KRestart, o) ∉ h.
(** Request [i] was answered with [a] in [h]. *)
Definition answered (h : khistory) (i : nat) (a : answer) : Prop := exists e, (e, Some (i, a)) ∈ h.

(** [e] came in as request number [i]. *)
Definition asked (h : khistory) (i : nat) (e : kevent) : Prop :=
  exists h1 s1 o s2 h2, h = h1 ++ (e, o) :: h2 /\ kreach h1 s1 /\ kstep s1 e = (s2, o) /\ length (a_reqs s1) = i /\ length (a_reqs s2) = S i.

(** Stopped or failed. *)
Definition over (p : phase) : Prop := p = STOPPED \/ p = FAILED.
(** Cluster [k] is told to end, has ended, or its record is deleted. *)
Definition ending (s : kapi) (k : key) : Prop :=
  match newest s k with None => True | Some x => so_active x = false \/ over (ophase (so_obj x)) end.
(** The object had this version. *)
Definition was (s : kapi) (k : key) (x : sobj) : Prop := exists vs, a_srv s !! k = Some vs /\ x ∈ vs.
(** The status [v] tells of is the object's, except that credentials once read are
    kept. *)
Definition tells (o : obj) (v : view) : Prop :=
  v_user v = username o /\ v_status v = ophase o /\ v_stop v = ocompletion o /\ v_addr v = match ophase o with RUNNING => oservice o | _ => None end.
(** Pending, then running, then stopped or failed. *)
Definition no_earlier (p p' : phase) : Prop :=
  match p with PENDING => True | RUNNING => p' <> PENDING | _ => p' = p end.
(** The gateway has seen everything about [k] and has nothing left to do for it. *)
Definition caught_up (s : kapi) (k : key) : Prop :=
  default 0 (a_pos s !! k) = length (default [] (a_srv s !! k)) + (if decide (k ∈ a_gone s) then 1 else 0) /\ done_with (a_view s) k.
(** A step of the gateway alone: of its watch or its loop. *)
Definition own_step (e : kevent) : Prop := match e with KWatch _ _ | KSync _ | KSecret (Some _) => True | _ => False end.
