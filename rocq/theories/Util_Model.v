(** Model of dask-gateway-server/dask_gateway_server/utils.py: RateLimiter (84-122)
    and LRUCache (247-273), and of backends/kubernetes/utils.py: merge_json_objects
    (208-240). *)
From Coq Require Import Ascii ZArith QArith Qminmax.
From stdpp Require Import prelude.
From Verif Require Import Router_Model ProxyLog_Model Json_Model.

(** * RateLimiter.  Times, rate and tokens are rationals (simplified: floats). *)
Section limiter.
Local Open Scope Q_scope.
Context (rate burst : Q).
Record limiter := Limiter { l_tokens : Q; l_last : Q }.
(** __init__ (92-101), created at time [now]; [_last_event] is never read. *)
Definition limiter_init (now : Q) : limiter := Limiter burst now.
Definition max_elapsed : Q := burst / rate.
(** acquire (117-121) called at time [now]: [_delay] (103-115).  The answer is the
    time at which the caller goes on: at once, or when the sleep is over. *)
Definition acquire (l : limiter) (now : Q) : limiter * Q :=
  let elapsed := Qmin (now - l_last l) max_elapsed in
  let tokens := Qmin (l_tokens l + elapsed * rate) burst - 1 in
  let delay := if Qlt_le_dec tokens 0 then - tokens / rate else 0 in
  (Limiter tokens now, now + delay).
End limiter.

(** * LRUCache: the OrderedDict, oldest entry first. *)
Section lru.
Context {K V : Type} `{EqDecision K}.
Definition cache : Type := list (K * V).
Definition clookup (k : K) (c : cache) : option V := dget k c.
(** get (254-260): move_to_end raises KeyError for an unknown key. *)
Definition lru_get (k : K) (c : cache) : cache * option V :=
  match dget k c with
  | Some v => (ddel k c ++ [(k, v)], Some v)
  | None => (c, None)
  end.
(** put (262-266): assigning to a known key keeps its place. *)
Definition lru_put (max_size : nat) (k : K) (v : V) (c : cache) : cache * option K :=
  let c' := dset k v c in
  if decide (max_size < length c')%nat then (tail c', fst <$> head c') else (c', None).
(** discard (268-273). *)
Definition lru_discard (k : K) (c : cache) : cache := ddel k c.

Inductive lev := Get (k : K) | Put (k : K) (v : V) | Discard (k : K).
(** What a call returns; for [put], which returns nothing, the entry it evicted. *)
Inductive lout := OGet (v : option V) | OPut (evicted : option K) | ODiscard.
Definition lru_step (max_size : nat) (c : cache) (e : lev) : cache * lout :=
  match e with
  | Get k => let '(c', v) := lru_get k c in (c', OGet v)
  | Put k v => let '(c', x) := lru_put max_size k v c in (c', OPut x)
  | Discard k => (lru_discard k c, ODiscard)
  end.
End lru.
Arguments cache : clear implicits.
Arguments lev : clear implicits.
Arguments lout : clear implicits.

(** * merge_json_objects (208-240) on values.  [b] is the object that remains to be
    merged; its iteration and the recursion into its values are one recursion. *)
Fixpoint merge_val (b_val : json) (a_val : json) {struct b_val} : json :=
  match b_val with
  | JObj b =>
      match a_val with
      | JObj a =>
          JObj ((fix go (b : list (bytes * json)) (a : list (bytes * json)) : list (bytes * json) :=
             match b with
             | [] => a
             | (key, v) :: b' =>
                 go b' (match dget key a with
                        | Some x => dset key (merge_val v x) a
                        | None => dset key v a
                        end)
             end) b a)
      | _ => b_val
      end
  | JList lb => match a_val with JList la => JList (la ++ lb) | _ => b_val end
  | _ => b_val
  end.
(** The same on dicts. *)
Fixpoint merge (b a : list (bytes * json)) : list (bytes * json) :=
  match b with
  | [] => a
  | (key, v) :: b' => merge b' (match dget key a with Some x => dset key (merge_val v x) a | None => dset key v a end)
  end.

(** * merge_json_objects on mutable objects: dicts and lists live at addresses of a
    heap (the list of all objects ever made), values are scalars or addresses. *)
Inductive hval := Scalar (j : json) | Ref (a : nat).
Inductive hobj := HDict (d : list (bytes * hval)) | HList (l : list hval).
Definition heap : Type := list hobj.
Definition as_dict (h : heap) (v : hval) : option (nat * list (bytes * hval)) :=
  match v with Ref a => match h !! a with Some (HDict d) => Some (a, d) | _ => None end | _ => None end.
Definition as_list (h : heap) (v : hval) : option (list hval) :=
  match v with Ref a => match h !! a with Some (HList l) => Some l | _ => None end | _ => None end.
(** a[key] = v on the dict at [a]. *)
Definition hset (h : heap) (a : nat) (key : bytes) (v : hval) : heap :=
  match h !! a with Some (HDict d) => <[a := HDict (dset key v d)]> h | _ => h end.
Definition hget (h : heap) (a : nat) (key : bytes) : option hval :=
  match h !! a with Some (HDict d) => dget key d | _ => None end.
(** [hmerge fuel h a b] merges the dicts at [a] and [b]: (new heap, address of the
    result).  Fuel bounds the nesting (a cyclic object would recurse for ever). *)
Fixpoint hmerge (fuel : nat) (h : heap) (a b : nat) : option (heap * nat) :=
  match fuel with
  | 0%nat => None
  | S fuel =>
      match h !! a, h !! b with
      | Some (HDict da), Some (HDict db) =>
          match db with
          | [] => Some (h, a)                                  (* 225: if b *)
          | _ =>
              let r := length h in                             (* 227: a.copy() *)
              let loop := (fix loop (items : list (bytes * hval)) (h : heap) : option heap :=
                match items with
                | [] => Some h
                | (key, b_val) :: items' =>
                    h' ← (match hget h r key with
                          | Some a_val =>
                              match as_dict h a_val, as_dict h b_val with
                              | Some (x, _), Some (y, _) => '(h1, m) ← hmerge fuel h x y; Some (hset h1 r key (Ref m))
                              | _, _ =>
                                  match as_list h a_val, as_list h b_val with
                                  | Some la, Some lb => Some (hset (h ++ [HList (la ++ lb)]) r key (Ref (length h)))
                                  | _, _ => Some (hset h r key b_val)
                                  end
                              end
                          | None => Some (hset h r key b_val)
                          end);
                    loop items' h'
                end) in
              h' ← loop db (h ++ [HDict da]);
              Some (h', r)
          end
      | _, _ => None
      end
  end.
