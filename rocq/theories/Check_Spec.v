(** Vocabulary for C59, C73 and C74. *)
From Coq Require Import Ascii String.
From stdpp Require Import base list gmap strings.
From Verif Require Import Check_Model.
Open Scope nat_scope.

(** The worker's container is among those its application reports. *)
Definition container_alive (apps : positive -> application) (w : worker) : Prop := exists l i, containers (apps (w_cluster w)) = Some l /\ w_id w = Some i /\ i ∈ l.
(** One answer per thing asked about, in the same order. *)
Definition answers {A} (P : A -> Prop) (xs : list A) (bs : list bool) : Prop := Forall2 (fun x b => b = true <-> P x) xs bs.
(** A word of the batch system's output. *)
Definition word (t : text) : Prop := t <> [] /\ Forall (fun c => is_space c = false) t.
Definition newline : ascii := "010"%char.
Definition space : ascii := " "%char.
(** squeue's output for these jobs and states. *)
Definition squeue (rows : list (text * text)) : text := List.concat (map (fun r => fst r ++ [space] ++ snd r ++ [newline]) rows).
(** qstat's output: two lines of headings, then name, user and time in between and the
    queue at the end. *)
Definition qstat (h1 h2 : text) (rows : list (text * text)) (a b c q : text) : text :=
  h1 ++ [newline] ++ h2 ++ [newline] ++
  List.concat (map (fun r => fst r ++ [space] ++ a ++ [space] ++ b ++ [space] ++ c ++ [space] ++ snd r ++ [space] ++ q ++ [newline]) rows).
(** The last row about a job says so. *)
Definition reported (alive : text -> Prop) (rows : list (text * text)) (j : text) : Prop :=
  exists r1 st r2, rows = r1 ++ (j, st) :: r2 /\ (forall st', (j, st') ∉ r2) /\ alive st.
Definition slurm_active (st : text) : Prop := st = t_ "R" \/ st = t_ "CG" \/ st = t_ "PD" \/ st = t_ "CF".
Definition pbs_active (st : text) : Prop := st = t_ "R" \/ st = t_ "Q" \/ st = t_ "H".
(** Text without a line break. *)
Definition one_line (l : text) : Prop := Forall (fun c => is_break c = false) l.
