(** The watch cache (S/backends/kubernetes/utils.py, Informer).  The API server is the
    log of changes of the watched kind of objects; a resource version is a position in
    this log, and the list request answers with the objects at some position between
    the request and the answer.  Not modelled: watch objects without a
    resourceVersion, failures outside of the try blocks. *)
From stdpp Require Import gmap.

(** An object's key (get_key 82-85) and its content. *)
Notation key := positive.
Notation content := positive.
(** A change: an object is added or modified, an object is deleted, or something else
    that the watch does not select. *)
Inductive change := Put (k : key) (v : content) | Gone (k : key) | Other.
Definition apply (m : gmap key content) (c : change) : gmap key content :=
  match c with Put k v => <[k := v]> m | Gone k => delete k m | Other => m end.
Definition objects (l : list change) : gmap key content := foldl apply ∅ l.

(** Where run (142-205) is: waiting for the list (request sent at version [since]), or
    watching from version [ver]. *)
Inductive mode := Listing (since : nat) | Watching.
Record state := State { log : list change; cache : gmap key content; md : mode; ver : nat; initialized : bool }.
Definition init : state := State [] ∅ (Listing 0) 0 false.

Inductive event :=
| EChange (c : change)                                   (* on the server *)
| EListed (n : nat) (dels : list key) (items : list (key * content)) (bad : gset key)
    (* the list is answered at version n; the order in which the deleted keys are
       visited and the order of the items; keys whose handler raises *)
| EListFailed                                            (* the list request fails *)
| EEvent (bad : gset key)                                (* the next watch event arrives *)
| EEnd                                                   (* the watch times out *)
| EError.                                                (* an error event, or the watch fails *)
(** Handler calls: key, object, old object, whether it raised. *)
Inductive obs := OUpd (k : key) (v : content) (old : option content) (raised : bool) | ODel (k : key) (v : content) (raised : bool).

(** handle_initial (87-110).  An exception of a handler is logged (102, 109). *)
Definition del1 (bad : gset key) (x : gmap key content * list obs) (k : key) : gmap key content * list obs :=
  match fst x !! k with
  | Some v => (delete k (fst x), snd x ++ [ODel k v (bool_decide (k ∈ bad))])
  | None => x
  end.
Definition upd1 (bad : gset key) (x : gmap key content * list obs) (kv : key * content) : gmap key content * list obs :=
  (<[fst kv := snd kv]> (fst x), snd x ++ [OUpd (fst kv) (snd kv) (fst x !! fst kv) (bool_decide (fst kv ∈ bad))]).
Definition handle_initial (c : gmap key content) (dels : list key) (items : list (key * content)) (bad : gset key) : gmap key content * list obs :=
  foldl (upd1 bad) (foldl (del1 bad) (c, []) dels) items.
(** handle (112-128).  The object of a DELETED event is its last state. *)
Definition handle (c : gmap key content) (last : gmap key content) (ch : change) (bad : gset key) : gmap key content * list obs :=
  match ch with
  | Put k v => (<[k := v]> c, [OUpd k v (c !! k) (bool_decide (k ∈ bad))])
  | Gone k => (delete k c, [ODel k (default 1%positive (last !! k)) (bool_decide (k ∈ bad))])
  | Other => (c, [])
  end.
(** The next change that the watch sends, and the version of its object. *)
Fixpoint next (l : list change) (n : nat) : option (change * nat) :=
  match l with
  | [] => None
  | Other :: l => next l (S n)
  | c :: _ => Some (c, S n)
  end.

(** set(self.cache).difference(obj_map) (90) in some order; the items in some order. *)
Definition lists (dels : list key) (items : list (key * content)) (c m : gmap key content) : bool :=
  bool_decide (NoDup dels) && bool_decide (list_to_set dels = (dom c ∖ dom m : gset key)) && bool_decide (NoDup items.*1) && bool_decide (list_to_map items = m).

Definition step (s : state) (e : event) : state * list obs :=
  match e with
  | EChange c =>
    match c with
    | Gone k => if decide (is_Some (objects (log s) !! k)) then (State (log s ++ [c]) (cache s) (md s) (ver s) (initialized s), []) else (s, [])
    | _ => (State (log s ++ [c]) (cache s) (md s) (ver s) (initialized s), [])
    end
  | EListed n dels items bad =>
    match md s with
    | Listing since =>
      let m := objects (take n (log s)) in
      if decide (since <= n <= length (log s)) then
        if lists dels items (cache s) m then
          let '(c, o) := handle_initial (cache s) dels items bad in
          (State (log s) c Watching n true, o)
        else (s, [])
      else (s, [])
    | Watching => (s, [])
    end
  | EListFailed =>
    match md s with
    | Listing _ => (State (log s) (cache s) (Listing (length (log s))) (ver s) (initialized s), [])
    | Watching => (s, [])
    end
  | EEvent bad =>
    match md s with
    | Watching =>
      match next (drop (ver s) (log s)) (ver s) with
      | Some (c, n) =>
        let '(m, o) := handle (cache s) (objects (take (n - 1) (log s))) c bad in
        (State (log s) m Watching n (initialized s), o)
      | None => (s, [])
      end
    | Listing _ => (s, [])
    end
  | EEnd => (s, [])
  | EError =>
    match md s with
    | Watching => (State (log s) (cache s) (Listing (length (log s))) (ver s) (initialized s), [])
    | Listing _ => (s, [])
    end
  end.
