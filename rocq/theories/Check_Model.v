(** The status checks of the backends: YARN (S/backends/yarn.py 226-286), PBS and Slurm
    (S/backends/jobqueue/base.py 145-169, 200-214; pbs.py, slurm.py: parse_job_states),
    in-process (S/backends/inprocess.py 29-35), local (S/backends/local.py 278-299).
    A check returns a list or raises ([None]). *)
From Coq Require Import Ascii String.
From stdpp Require Import base list gmap strings.
Open Scope nat_scope.

Notation text := (list ascii).
Definition t_ (s : string) : text := list_ascii_of_string s.

(** YARN.  [w_cluster]: the cluster; [w_id]: state["container_id"]. *)
Record worker := Worker { w_name : positive; w_cluster : positive; w_id : option positive }.
(** _get_app_client: raises or not; get_containers: raises, or the ids (269-273). *)
Record application := App { reachable : bool; containers : option (list positive) }.
(** The groups in the order of first appearance (263-265). *)
Definition group1 (g : list (positive * list worker)) (w : worker) : list (positive * list worker) :=
  if existsb (fun cl => bool_decide (fst cl = w_cluster w)) g
  then map (fun cl => if decide (fst cl = w_cluster w) then (fst cl, snd cl ++ [w]) else cl) g
  else g ++ [(w_cluster w, [w])].
Definition group (ws : list worker) : list (positive * list worker) := fold_left group1 ws [].
(** One turn of the loop (269-284). *)
Definition check_group (apps : positive -> application) (c : positive) (ws : list worker) (results : gmap positive bool) : option (gmap positive bool) :=
  if reachable (apps c) then
    Some (fold_left (fun r w => <[w_name w := match containers (apps c) with
                                              | Some l => match w_id w with Some i => bool_decide (i ∈ l) | None => false end
                                              | None => false
                                              end]> r) ws results)
  else None.
(** The loop variable [workers] is that of the argument (268), so after the loop it names
    the last group; with no group it is still the argument. *)
Fixpoint groups_loop (apps : positive -> application) (gs : list (positive * list worker)) (ws : list worker) (results : gmap positive bool) : option (list worker * gmap positive bool) :=
  match gs with
  | [] => Some (ws, results)
  | (c, g) :: gs => match check_group apps c g results with Some r => groups_loop apps gs g r | None => None end
  end.
Definition yarn_check_workers (apps : positive -> application) (ws : list worker) : option (list bool) :=
  match groups_loop apps (group ws) ws ∅ with
  | Some (ws', results) => mapM (fun w => results !! w_name w) ws'                (* KeyError *)
  | None => None
  end.
(** do_check_clusters (226-237).  [None] as a state: application_report raises.  The
    answer False is not a list: zip raises in the caller. *)
Fixpoint yarn_check_clusters (report : positive -> option string) (ids : list (option positive)) : option (list bool) :=
  match ids with
  | [] => Some []
  | None :: _ => None
  | Some a :: ids =>
    match report a with
    | Some st => let ok := negb (bool_decide (st ∈ ["FAILED"; "KILLED"; "FINISHED"]%string)) in
                 match yarn_check_clusters report ids with Some l => Some (ok :: l) | None => None end
    | None => None
    end
  end.

(** str.split() and str.splitlines() on ASCII text. *)
Definition is_space (c : ascii) : bool := let n := nat_of_ascii c in (9 <=? n) && (n <=? 13) || (28 <=? n) && (n <=? 32).
Definition is_break (c : ascii) : bool := let n := nat_of_ascii c in (10 <=? n) && (n <=? 13) || (28 <=? n) && (n <=? 30).
Definition cons_word (w : text) (l : list text) : list text := match w with [] => l | _ => w :: l end.
Fixpoint words_acc (acc : text) (t : text) : list text :=
  match t with [] => cons_word acc [] | c :: t => if is_space c then cons_word acc (words_acc [] t) else words_acc (acc ++ [c]) t end.
Definition words := words_acc [].
(** \r\n is one break; the last line may be unterminated. *)
Fixpoint lines_acc (acc : text) (t : text) : list text :=
  match t with
  | [] => cons_word acc []
  | c :: t' =>
    if is_break c then
      acc :: (match t' with
              | d :: t'' => if (nat_of_ascii c =? 13) && (nat_of_ascii d =? 10) then lines_acc [] t'' else lines_acc [] t'
              | [] => []
              end)
    else lines_acc (acc ++ [c]) t'
  end.
Definition lines := lines_acc [].
(** parse_job_states. *)
Definition slurm_alive (st : text) : bool := bool_decide (st ∈ map t_ ["R"; "CG"; "PD"; "CF"]%string).
Definition pbs_alive (st : text) : bool := bool_decide (st ∈ map t_ ["R"; "Q"; "H"]%string).
Fixpoint collect (row : text -> option (text * bool)) (ls : list text) (states : gmap text bool) : option (gmap text bool) :=
  match ls with
  | [] => Some states
  | l :: ls => match row l with Some (j, ok) => collect row ls (<[j := ok]> states) | None => None end
  end.
Definition slurm_row (l : text) : option (text * bool) := match words l with [j; st] => Some (j, slurm_alive st) | _ => None end.
Definition pbs_row (l : text) : option (text * bool) :=
  let p := words l in match p !! 0, p !! 4 with Some j, Some st => Some (j, pbs_alive st) | _, _ => None end.
Definition slurm_states (out : text) : option (gmap text bool) := collect slurm_row (lines out) ∅.
Definition pbs_states (out : text) : option (gmap text bool) := collect pbs_row (drop 2 (lines out)) ∅.

(** _do_check (200-207) and check_jobs (145-169).  [status ids]: the output of the status
    command; None if it fails. *)
Record job := Job { j_name : positive; j_id : option text }.
Definition id_map (objs : list job) : gmap positive text := fold_left (fun m x => match j_id x with Some j => <[j_name x := j]> m | None => m end) objs ∅.
Definition check_jobs (status : list text -> option text) (parse : text -> option (gmap text bool)) (ids : list text) : option (gmap text bool) :=
  match ids with [] => Some ∅ | _ => match status ids with Some out => parse out | None => None end end.
Definition do_check (status : list text -> option text) (parse : text -> option (gmap text bool)) (objs : list job) : option (list bool) :=
  let m := id_map objs in
  match check_jobs status parse (map snd (map_to_list m)) with
  | Some states => Some (map (fun x => match m !! j_name x with Some j => default false (states !! j) | None => false end) objs)
  | None => None
  end.

(** In-process: the scheduler or worker object of a name, if any, and whether its status
    is closed; the test is `not x.status != Status.closed` (33). *)
Definition inprocess_check (closed : positive -> option bool) (names : list positive) : list bool :=
  map (fun n => match closed n with Some c => negb (negb c) | None => false end) names.
(** Local: is the recorded process running. *)
Definition local_check (running : positive -> bool) (pids : list (option positive)) : list bool :=
  map (fun p => match p with Some p => running p | None => false end) pids.

(** check_clusters_loop, check_workers_loop (S/backends/db_base.py 1085-1144): which of the
    objects get the target FAILED; zip stops at the shorter list; an exception is logged. *)
Definition failed {A} (objs : list A) (statuses : option (list bool)) : list A :=
  match statuses with Some l => map fst (List.filter (fun xb => negb (snd xb)) (zip objs l)) | None => [] end.
