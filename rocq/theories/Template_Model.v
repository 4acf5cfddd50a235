(** Template strings in the client's configuration: C/utils.py 5-8 (format_template), C/client.py
    280-315 (Gateway.__init__: address, public-address, proxy-address), 492-494
    (_config_cluster_options), C/auth.py 50-51 (get_auth: auth.kwargs).  C = dask-gateway/dask_gateway.
    str.format is modelled after CPython's MarkupIterator (Objects/stringlib/unicode_format.h)
    for fields that are a name only.  A field with an attribute, an index, a conversion or a
    format specification gives the separate result [Beyond], about which nothing is said.
    All exceptions (ValueError, KeyError, IndexError) are the one result [Raises]. *)
From Coq Require Import Ascii String ZArith.
From stdpp Require Import prelude.
From Verif Require Import Router_Model ProxyLog_Model Launch_Model Json_Model Addr_Model.
Local Open Scope nat_scope.

Inductive result (A : Type) := Gives (a : A) | Raises | Beyond.
Arguments Gives {A}. Arguments Raises {A}. Arguments Beyond {A}.
Definition bind {A B} (r : result A) (f : A -> result B) : result B :=
  match r with Gives a => f a | Raises => Raises | Beyond => Beyond end.

(** os.environ, as keyword arguments: a dict. *)
Definition environ := list (bytes * bytes).
Definition lbrace : ascii := "{"%char.
Definition rbrace : ascii := "}"%char.

(** get_field_object: an empty name or a number is a position, and there are no positional
    arguments (IndexError); every other name is a keyword (KeyError). *)
Definition field (env : environ) (name : bytes) : result bytes :=
  if forallb is_digit name then Raises else match dget name env with Some v => Gives v | None => Raises end.

(** MarkupIterator_next and do_markup: outside ([None]) and inside ([Some], with the characters
    of the name so far, the last one first) of a field. *)
Fixpoint markup (env : environ) (inside : option bytes) (s : bytes) : result bytes :=
  match inside, s with
  | None, [] => Gives []
  | None, c :: s =>
      if decide (c = lbrace) then
        match s with
        | [] => Raises                                 (* Single '{' encountered *)
        | d :: s' => if decide (d = lbrace) then bind (markup env None s') (fun t => Gives (lbrace :: t)) else markup env (Some []) s
        end
      else if decide (c = rbrace) then
        match s with
        | [] => Raises                                 (* Single '}' encountered *)
        | d :: s' => if decide (d = rbrace) then bind (markup env None s') (fun t => Gives (rbrace :: t)) else Raises
        end
      else bind (markup env None s) (fun t => Gives (c :: t))
  | Some _, [] => Raises                               (* expected '}' before end of string *)
  | Some name, c :: s =>
      if decide (c = rbrace) then bind (field env (rev name)) (fun v => bind (markup env None s) (fun t => Gives (v ++ t)))
      else if decide (c = lbrace) then Raises          (* unexpected '{' in field name *)
      else if decide (c ∈ b_ "[:!.") then Beyond
      else markup env (Some (c :: name)) s
  end.
(** x.format with the environment (utils.py 7). *)
Definition format (env : environ) (s : bytes) : result bytes := markup env None s.
(** utils.py 5-8. *)
Definition format_template (env : environ) (x : json) : result json :=
  match x with JStr s => bind (format env s) (fun t => Gives (JStr t)) | _ => Gives x end.
(** {k: format_template(v) for k, v in opts.items()} (client.py 494, auth.py 51). *)
Fixpoint format_values (env : environ) (o : list (bytes * json)) : result (list (bytes * json)) :=
  match o with
  | [] => Gives []
  | (k, v) :: o => bind (format_template env v) (fun v => bind (format_values env o) (fun o => Gives ((k, v) :: o)))
  end.

(** * Gateway.__init__ (280-315), with the arguments and the settings of the configuration. *)
Record config := Config { f_address : json; f_public : json; f_proxy : json }.
(** address and public_address: what is not a text has no rstrip (AttributeError). *)
Definition text_setting (env : environ) (arg : option bytes) (x : json) : result (option bytes) :=
  match arg with
  | Some a => Gives (Some a)
  | None => bind (format_template env x) (fun x => match x with JNull => Gives None | JStr s => Gives (Some s) | _ => Raises end)
  end.
(** proxy_address: True and False are integers for isinstance; with any other value
    proxy_netloc is not set (UnboundLocalError). *)
Definition proxy_setting (env : environ) (arg : proxy_arg) (x : json) : result proxy_arg :=
  match arg with
  | PNone => bind (format_template env x) (fun x =>
      match x with
      | JNull => Gives PNone
      | JInt n => Gives (PInt n)
      | JBool b => Gives (PInt (if b then 1 else 0)%Z)
      | JStr s => Gives (PStr s)
      | _ => Raises
      end)
  | _ => Gives arg
  end.
Definition configured (env : environ) (cfg : config) (address : option bytes) (proxy : proxy_arg) (public : option bytes) : result gateway :=
  bind (text_setting env address (f_address cfg)) (fun a =>
    match a with
    | None => Raises                                   (* 282-284 *)
    | Some a =>
        bind (text_setting env public (f_public cfg)) (fun p =>
          bind (proxy_setting env proxy (f_proxy cfg)) (fun q =>
            match new_gateway a q p with Ok g => Gives g | ValueError => Raises end))
    end).
