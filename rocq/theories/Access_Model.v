(** Model of an Options object of the client as a program uses it:
    dask-gateway/dask_gateway/options.py Options._get, _set (95-106), __getattr__ ..
    __len__ (109-133) and the methods it has from collections.abc.MutableMapping
    (get, __contains__, pop, popitem, clear, update, setdefault).  On top of
    [Options_Model.oset].

    [own]: the attributes the class has itself, which Python finds before calling
    __getattr__.  Left out: widgets (Form_Model), repr, comparisons. *)
From Coq Require Import Ascii String ZArith.
From stdpp Require Import prelude.
From Verif Require Import Router_Model ProxyLog_Model Json_Model Options_Model.

Inductive answer :=
| Value (v : json) | Method | Nothing | Names (l : list bytes) | Count (n : nat) | Yes | No
| KeyErr | AttrErr | TypeErr | Invalid.      (* raised; Invalid: by validate *)
Definition raised (a : answer) : bool := match a with KeyErr | AttrErr | TypeErr | Invalid => true | _ => false end.

Inductive use :=
| GetItem (k : bytes) | GetAttr (k : bytes) | SetItem (k : bytes) (x : json) | SetAttr (k : bytes) (x : json)
| DelItem (k : bytes) | DelAttr (k : bytes) | Iter | Len | Contains (k : bytes) | Get (k : bytes) (d : json)
| Pop (k : bytes) (d : option json) | PopItem | Clear | SetDefault (k : bytes) (x : json) | Update (l : list (bytes * json)).

Section access.
Context (float_of : Z -> option fl) (own : bytes -> bool).
(** _get (95-99). *)
Definition get_field (exc : answer) (k : bytes) (o : coptions) : answer :=
  match dget k o with Some c => Value (cf_value c) | None => exc end.
(** _set (101-106) and Field.set (171-172). *)
Definition set_field (exc : answer) (k : bytes) (x : json) (o : coptions) : coptions * answer :=
  match dget k o with
  | None => (o, exc)
  | Some c =>
      match cvalidate float_of (cf_kind c) x with
      | None => (o, Invalid)
      | Some v => (dset k (CField (cf_name c) v (cf_kind c)) o, Nothing)
      end
  end.
(** MutableMapping.update: for key in other: self[key] = other[key]. *)
Fixpoint update_all (l : list (bytes * json)) (o : coptions) : coptions * answer :=
  match l with
  | [] => (o, Nothing)
  | (k, x) :: l' => let '(o', a) := set_field KeyErr k x o in if raised a then (o', a) else update_all l' o'
  end.
Definition perform (u : use) (o : coptions) : coptions * answer :=
  match u with
  | GetItem k => (o, get_field KeyErr k o)                                        (* 115-116 *)
  | GetAttr k => (o, if own k then Method else get_field AttrErr k o)              (* 109-110 *)
  | SetItem k x => set_field KeyErr k x o                                          (* 118-119 *)
  | SetAttr k x => set_field AttrErr k x o                                         (* 112-113: for own names too *)
  | DelItem _ | DelAttr _ => (o, TypeErr)                                          (* 121-124 *)
  | Iter => (o, Names (map fst o))                                                 (* 126-127 *)
  | Len => (o, Count (length o))                                                   (* 129-130 *)
  | Contains k => (o, match dget k o with Some _ => Yes | None => No end)
  | Get k d => (o, match dget k o with Some c => Value (cf_value c) | None => Value d end)
  | Pop k d =>                       (* value = self[key]; then del self[key] *)
      (o, match dget k o with
          | Some _ => TypeErr
          | None => match d with Some x => Value x | None => KeyErr end
          end)
  | PopItem => (o, match o with [] => KeyErr | _ => TypeErr end)
  | Clear => (o, match o with [] => Nothing | _ => TypeErr end)   (* popitem until KeyError *)
  | SetDefault k x => match dget k o with Some c => (o, Value (cf_value c)) | None => set_field KeyErr k x o end
  | Update l => update_all l o
  end.
Fixpoint performs (us : list use) (o : coptions) : coptions :=
  match us with [] => o | u :: us' => performs us' (fst (perform u o)) end.
End access.
