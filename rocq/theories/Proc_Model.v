(** Stopping local processes: S/backends/local.py 29-57 (_signal, is_running,
    wait_is_shutdown), 239-256 (stop_process).
    S = dask-gateway-server/dask_gateway_server.
    Time is in tenths of a second (pauses are 0.1 s, 0.2 s, 0.4 s and so on; timeouts are
    whole seconds; the sums of these floats stay far enough from whole seconds for rounding
    not to matter).  asyncio.sleep takes exactly its time.  [tab t] says who has the
    process id at time [t]: nobody, a process, or a process that the gateway may not send
    signals to (os.kill raises PermissionError). *)
From Coq Require Import ZArith List.
From stdpp Require Import prelude.
Local Open Scope Z_scope.

Inductive holder := Free | Held (p : nat) | Denied.
Definition table := Z -> holder.
Inductive waited := WDown (t : Z) | WTimeout (t : Z) | WRaised (t : Z).
(** wait_is_shutdown (46-57); the fuel is always enough (Proc_Proofs.wait_fuel). *)
Fixpoint wait (fuel : nat) (tab : table) (t rem pause : Z) : waited :=
  match fuel with
  | O => WTimeout t
  | S fuel => if rem <? 0 then WTimeout t
              else match tab t with
                   | Free => WDown t
                   | Denied => WRaised t
                   | Held _ => wait fuel tab (t + pause) (rem - pause) (2 * pause)
                   end
  end.
Definition wait_is_shutdown (tab : table) (t timeout : Z) : waited :=
  wait (S (S (Z.to_nat (10 * timeout)))) tab t (10 * timeout) 1.

Inductive sig := SIGINT | SIGTERM | SIGKILL.
(** What stop_process did: the signals sent, with their times and receivers, and how it
    ended. *)
Inductive outcome := Stopped (t : Z) | Survived (t : Z) | Raised (t : Z).
Definition sent := list (Z * sig * holder).
Fixpoint attempts (tab : table) (t : Z) (methods : list (sig * Z)) : sent * outcome :=
  match methods with
  | [] => ([], Survived t)
  | (s, timeout) :: rest =>
      match tab t with
      | Denied => ([], Raised t)
      | h =>
          match wait_is_shutdown tab t timeout with
          | WDown t' => ([(t, s, h)], Stopped t')
          | WRaised t' => ([(t, s, h)], Raised t')
          | WTimeout t' => let '(l, o) := attempts tab t' rest in ((t, s, h) :: l, o)
          end
      end
  end.
Definition stop_process (tab : table) (t sigint_timeout sigterm_timeout sigkill_timeout : Z) : sent * outcome :=
  attempts tab t [(SIGINT, sigint_timeout); (SIGTERM, sigterm_timeout); (SIGKILL, sigkill_timeout)].
