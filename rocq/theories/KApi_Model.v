(** Requests about clusters on Kubernetes, from the handler to the API server and back
    through the watch (S/routes.py 115-177, S/backends/kubernetes/backend.py), on top
    of View_Model (sync_cluster).  Users are authenticated (C35). *)
From Coq Require Import ZArith.
From stdpp Require Import prelude gmap.
From Verif Require Import View_Model.

(** A cluster object at the API server: what View_Model sees of it, and spec.active. *)
Record sobj := SObj { so_obj : obj; so_active : bool }.
(** make_cluster_object (505-523): no status, which sync_cluster takes for Pending. *)
Definition new_obj (u : user) : sobj := SObj (Obj u PENDING None false None) true.
(** stop_cluster's patch (421-428). *)
Definition deactivate (x : sobj) : sobj := SObj (so_obj x) false.

Inductive answer :=
| AName (k : key)          (* 201 *)
| AReport (k : key) (v : view)  (* 200 *)
| ADone                    (* 204 *)
| ANotFound (k : key)      (* 404 *)
| AForbidden (k : key)     (* 403 *)
| AError.                  (* 500 *)
(** A request at the gateway. *)
Inductive request :=
| RCreate (u : user) (k : key)          (* 408: the object is on its way to the API server *)
| RWait (u : user) (k : key) (f : nat)  (* 434: waiting for Flag number f *)
| RPatch (u : option user) (k : key)    (* 421: the patch is on its way *)
| ROver.                                (* answered *)

(** [a_srv]: all versions of each object, oldest first.  [a_pos]: how many of them the
    watch cache has seen; one more than all: the deletion too.  [a_flags]: whether
    each Flag (utils.py 276-290) is set; [a_waiters]: self.cluster_waiters. *)
Record kapi := KA {
  a_srv : gmap key (list sobj); a_gone : gset key; a_pos : gmap key nat; a_view : state;
  a_flags : list bool; a_waiters : gmap key nat; a_reqs : list request }.
Definition kinit : kapi := KA ∅ ∅ ∅ init [] ∅ [].
Definition set_view (v : state) (s : kapi) : kapi := KA (a_srv s) (a_gone s) (a_pos s) v (a_flags s) (a_waiters s) (a_reqs s).
Definition set_reqs (l : list request) (s : kapi) : kapi := KA (a_srv s) (a_gone s) (a_pos s) (a_view s) (a_flags s) (a_waiters s) l.
Definition set_flags (f : list bool) (w : gmap key nat) (s : kapi) : kapi := KA (a_srv s) (a_gone s) (a_pos s) (a_view s) f w (a_reqs s).
Definition set_srv (m : gmap key (list sobj)) (s : kapi) : kapi := KA m (a_gone s) (a_pos s) (a_view s) (a_flags s) (a_waiters s) (a_reqs s).
(** The object as the API server has it. *)
Definition newest (s : kapi) (k : key) : option sobj :=
  if decide (k ∈ a_gone s) then None else vs ← a_srv s !! k; last vs.
Definition write (k : key) (x : sobj) (s : kapi) : kapi := set_srv (<[k := default [] (a_srv s !! k) ++ [x]]> (a_srv s)) s.

(** What became of a call of the API server: done and answered; done, but the answer
    was lost; not done. *)
Inductive fate := Done | Lost | Undone.
Inductive kevent :=
| KPost (u : user) (k : key)            (* POST: k is the new uuid (with the namespace) *)
| KGet (u : user) (k : key)             (* GET *)
| KGetWait (u : user) (k : key)         (* GET ?wait *)
| KStop (u : option user) (k : key)     (* DELETE, by a user or with the cluster's token (C36) *)
| KServer (i : nat) (r : fate)          (* the API server handles the call of request i *)
| KFlag (i : nat) (late : bool)         (* request i goes on: its Flag is set, or 20 seconds are over *)
| KPhase (k : key) (o : obj)            (* the controller writes the status *)
| KDelete (k : key)                     (* the record is deleted *)
| KWatch (k : key) (n : nat)            (* the watch cache moves on by n changes, or lists again *)
| KSync (k : key) | KSecret (r : option positive) (* sync_clusters_loop *)
| KRestart.                             (* the gateway's process starts again *)

(** get_cluster after the wait (439), and the handler (155-161). *)
Definition look (u : user) (k : key) (s : kapi) : answer :=
  match get_cluster (a_view s) k with
  | None => ANotFound k
  | Some v => if decide (v_user v = u) then AReport k v else AForbidden k
  end.
(** self.cluster_waiters[k] of a defaultdict (433). *)
Definition waiter (k : key) (s : kapi) : nat * kapi :=
  match a_waiters s !! k with
  | Some f => (f, s)
  | None => (length (a_flags s), set_flags (a_flags s ++ [false]) (<[k := length (a_flags s)]> (a_waiters s)) s)
  end.
Definition raise_flag (f : nat) (s : kapi) : kapi := set_flags (<[f := true]> (a_flags s)) (a_waiters s) s.
(** The end of sync_cluster (565-567, 621-622): [None]: the cluster is deleted. *)
Definition synced (k : key) (p : option phase) (s : kapi) : kapi :=
  match p with
  | None => match a_waiters s !! k with
            | Some f => let s1 := raise_flag f s in set_flags (a_flags s1) (delete k (a_waiters s1)) s1
            | None => s
            end
  | Some p => if (phase_num RUNNING <=? phase_num p)%nat then let '(f, s1) := waiter k s in raise_flag f s1 else s
  end.
(** What a step of the loop has finished: the key, and the status that was stored. *)
Definition finished (s : state) (e : event) : option (key * option phase) :=
  match e, proc s with
  | EGet k, None =>
      if decide (k ∈ dirty s) then
        match cache s !! k with
        | None => Some (k, None)
        | Some o => match proc (step s e).1 with None => Some (k, Some (ophase o)) | Some _ => None end
        end
      else None
  | ESecret (Some _), Some (k, v) => Some (k, Some (v_status v))
  | _, _ => None
  end.
Definition loop (e : event) (s : kapi) : kapi :=
  let s1 := set_view (step (a_view s) e).1 s in
  match finished (a_view s) e with Some (k, p) => synced k p s1 | None => s1 end.

(** A status that the controller may write after another (C52), for the same user. *)
Definition follows (o o' : obj) : bool :=
  bool_decide (username o = username o') &&
  (if (phase_num (ophase o) <=? 2)%nat then (phase_num (ophase o) <=? phase_num (ophase o'))%nat else bool_decide (ophase o = ophase o')).

(** DELETE (165-177), stop_cluster (413-419). *)
Definition delete_request (u : option user) (k : key) (s : kapi) : request + answer :=
  match get_cluster (a_view s) k with
  | None => inr ADone
  | Some v =>
      match u with
      | Some u => if decide (v_user v = u) then
                    if (phase_num STOPPED <=? phase_num (v_status v))%nat then inr ADone else inl (RPatch (Some u) k)
                  else inr (AForbidden k)
      | None => if (phase_num STOPPED <=? phase_num (v_status v))%nat then inr ADone else inl (RPatch None k)
      end
  end.

(** Names (uuid4) are not used twice. *)
Definition creates (k : key) (r : request) : bool := match r with RCreate _ k' => bool_decide (k' = k) | _ => false end.
(** A request begins; it gets the next number. *)
Definition begins (r : request) (s : kapi) : kapi := set_reqs (a_reqs s ++ [r]) s.
Definition ends (i : nat) (s : kapi) : kapi := set_reqs (<[i := ROver]> (a_reqs s)) s.

(** setup (357-384): requests are served once the objects are listed (Informer.start,
    utils.py 130-135; handle_initial 86-110); the requests under way are lost. *)
Definition restart (s : kapi) : kapi :=
  let objs := map_imap (fun k _ => so_obj <$> newest s k) (a_srv s) in
  KA (a_srv s) (a_gone s) (map_imap (fun k vs => Some (length vs + if decide (k ∈ a_gone s) then 1 else 0)) (a_srv s))
     (State objs (dom objs) None ∅ ∅) [] ∅ (map (fun _ => ROver) (a_reqs s)).

(** The output: which request was answered, and how. *)
Definition kstep (s : kapi) (e : kevent) : kapi * option (nat * answer) :=
  match e with
  | KPost u k => if bool_decide (is_Some (a_srv s !! k)) || existsb (creates k) (a_reqs s) then (s, None) else (begins (RCreate u k) s, None)
  | KGet u k => (begins ROver s, Some (length (a_reqs s), look u k s))
  | KGetWait u k => let '(f, s1) := waiter k s in (begins (RWait u k f) s1, None)
  | KStop u k =>
      match delete_request u k s with
      | inl r => (begins r s, None)
      | inr a => (begins ROver s, Some (length (a_reqs s), a))
      end
  | KServer i r =>
      match a_reqs s !! i with
      | Some (RCreate u k) =>
          match r with
          | Done => (ends i (write k (new_obj u) s), Some (i, AName k))
          | Lost => (ends i (write k (new_obj u) s), Some (i, AError))
          | Undone => (ends i s, Some (i, AError))
          end
      | Some (RPatch u k) =>
          match newest s k with
          | None => (ends i s, Some (i, AError))              (* 404 from the API server: ApiException *)
          | Some x =>
              match r with
              | Done => (ends i (write k (deactivate x) s), Some (i, ADone))
              | Lost => (ends i (write k (deactivate x) s), Some (i, AError))
              | Undone => (ends i s, Some (i, AError))
              end
          end
      | _ => (s, None)
      end
  | KFlag i late =>
      match a_reqs s !! i with
      | Some (RWait u k f) =>
          if late || default false (a_flags s !! f) then (ends i s, Some (i, look u k s)) else (s, None)
      | _ => (s, None)
      end
  | KPhase k o =>
      match newest s k with
      | Some x => if follows (so_obj x) o then (write k (SObj o (so_active x)) s, None) else (s, None)
      | None => (s, None)
      end
  | KDelete k =>
      match newest s k with
      | Some x => (KA (a_srv s) ({[k]} ∪ a_gone s) (a_pos s) (a_view s) (a_flags s) (a_waiters s) (a_reqs s), None)
      | None => (s, None)
      end
  | KWatch k n =>
      let vs := default [] (a_srv s !! k) in
      let p := default 0 (a_pos s !! k) in
      let p' := Nat.min (p + n) (length vs + if decide (k ∈ a_gone s) then 1 else 0) in
      if decide (p < p') then
        let s1 := KA (a_srv s) (a_gone s) (<[k := p']> (a_pos s)) (a_view s) (a_flags s) (a_waiters s) (a_reqs s) in
        match vs !! (p' - 1) with
        | Some x => (set_view (step (a_view s) (EPut k (so_obj x))).1 s1, None)
        | None => if decide (p = 0) then (s1, None) else (set_view (step (a_view s) (EGone k)).1 s1, None)
        end
      else (s, None)
  | KSync k => (loop (EGet k) s, None)
  | KSecret r => (loop (ESecret r) s, None)
  | KRestart => (restart s, None)
  end.
