(** Model of dask-gateway-server/dask_gateway_server/options.py (Options 55-108,
    Field 139-172, String .. Mapping 182-345), of its client-side counterpart
    dask-gateway/dask_gateway/options.py (Options 46-130, Field 152-178, String ..
    Mapping 197-346) and of backends/base.py process_cluster_options (90-100).

    Values are JSON values (what a request can contain); serialising a specification
    or a request to JSON and back is the identity.  Exceptions are [None].  Left
    out: labels, widgets, error texts, Mapping.transform of the client (yaml, only
    raises for values that are not JSON). *)
From Coq Require Import Ascii String ZArith.
From stdpp Require Import prelude.
From Verif Require Import Router_Model ProxyLog_Model Json_Model.
Local Open Scope Z_scope.

Section options.
(** float(n) of a Python int: rounds, or raises OverflowError. *)
Context (float_of : Z -> option fl).
(** Python objects: what a handler or a Select option may produce. *)
Context {V : Type} (J : json -> V).

(** * Kinds of fields, with their normalised parameters.  The bounds of an Integer
    are ints (a bool counts as 0 or 1). *)
Inductive kind :=
| KString | KBool
| KInt (mn mx : option Z)
| KFloat (mn mx : option fl)
| KSelect (opts : list (bytes * V))     (* OrderedDict *)
| KMapping.

(** Number.validate (226-231) of an int / of a float. *)
Definition check_int (mn mx : option Z) (z : Z) : bool :=
  match mn with Some m => negb (z <? m) | None => true end && match mx with Some m => negb (m <? z) | None => true end.
Definition check_float (mn mx : option fl) (f : fl) : bool :=
  match mn with Some m => negb (fltb f m) | None => true end && match mx with Some m => negb (fltb m f) | None => true end.
(** Float.validate (270-275): the conversion. *)
Definition to_float (x : json) : option fl :=
  match x with JFloat f => Some f | _ => z ← int_of x; float_of z end.
(** validate of each class (182-345). *)
Definition validate (k : kind) (x : json) : option json :=
  match k with
  | KString => match x with JStr _ => Some x | _ => None end
  | KBool => match x with JBool _ => Some x | _ => None end
  | KInt mn mx => z ← int_of x; if check_int mn mx z then Some x else None
  | KFloat mn mx => f ← to_float x; if check_float mn mx f then Some (JFloat f) else None
  | KSelect opts => match x with JStr s => match dget s opts with Some _ => Some x | None => None end | _ => None end
  | KMapping => match x with JObj _ => Some x | _ => None end
  end.

(** * Declarations: the arguments of the constructors.  [JNull] is None. *)
Inductive decl :=
| DString (default : json) | DBool (default : json)
| DInt (default mn mx : json) | DFloat (default mn mx : json)
| DSelect (opts : list (bytes * V)) (default : json)
| DMapping (default : json).
Record field := Field { f_name : bytes; f_target : bytes; f_default : json; f_kind : kind }.
(** Number.__init__ (218-225): min, then max validated against min. *)
Definition int_bounds (mn mx : json) : option (option Z * option Z) :=
  a ← (match mn with JNull => Some None | x => z ← int_of x; Some (Some z) end);
  b ← (match mx with JNull => Some None | x => z ← int_of x; if check_int a None z then Some (Some z) else None end);
  Some (a, b).
Definition float_bounds (mn mx : json) : option (option fl * option fl) :=
  a ← (match mn with JNull => Some None | x => f ← to_float x; Some (Some f) end);
  b ← (match mx with JNull => Some None | x => f ← to_float x; if check_float a None f then Some (Some f) else None end);
  Some (a, b).
(** The OrderedDict of Select (289-299). *)
Definition options_map (opts : list (bytes * V)) : list (bytes * V) := foldl (fun d kv => dset (fst kv) (snd kv) d) [] opts.
(** The constructors and Field.__init__ (140-146): the default is checked but kept
    as it is. *)
Definition checked (name target : bytes) (d : json) (k : kind) : option field :=
  _ ← validate k d; Some (Field name target d k).
Definition make (name : bytes) (target : option bytes) (d : decl) : option field :=
  let target := match target with None | Some [] => name | Some t => t end in
  match d with
  | DString x => checked name target x KString
  | DBool x => checked name target x KBool
  | DInt x mn mx => '(a, b) ← int_bounds mn mx; checked name target x (KInt a b)
  | DFloat x mn mx => '(a, b) ← float_bounds mn mx; checked name target x (KFloat a b)
  | DSelect opts x =>
      let om := options_map opts in
      match om with
      | [] => None
      | (k0, _) :: _ => checked name target (match x with JNull => JStr k0 | _ => x end) (KSelect om)
      end
  | DMapping x => checked name target (match x with JNull => JObj [] | _ => x end) KMapping
  end.

(** * Options.parse_options (85-97).  Set comprehension and dict comprehension:
    later fields of the same name overwrite. *)
Definition parse_options (fs : list field) (request : json) : option (list (bytes * json)) :=
  match request with
  | JObj r =>
      if forallb (fun k => bool_decide (k ∈ map f_name fs)) (map fst r) then
        vs ← mapM (fun f => v ← validate (f_kind f) (default (f_default f) (dget (f_name f) r)); Some (f_name f, v)) fs;
        Some (foldl (fun d kv => dset (fst kv) (snd kv) d) [] vs)
      else None
  | _ => None
  end.
(** transform (168-172; Select 314-316). *)
Definition transform (k : kind) (x : json) : option V :=
  match k with
  | KSelect opts => match x with JStr s => dget s opts | _ => None end
  | _ => Some (J x)
  end.
(** transform_options (99-103). *)
Definition transform_options (fs : list field) (opts : list (bytes * json)) : option (list (bytes * V)) :=
  vs ← mapM (fun f => v ← transform (f_kind f) (default (f_default f) (dget (f_name f) opts)); Some (f_target f, v)) fs;
  Some (foldl (fun d kv => dset (fst kv) (snd kv) d) [] vs).
(** get_configuration (105-109); the handler may raise. *)
Definition get_configuration {U} (handler : option (list (bytes * V) -> U -> option (list (bytes * V)))) (fs : list field)
    (opts : list (bytes * json)) (u : U) : option (list (bytes * V)) :=
  t ← transform_options fs opts;
  match handler with None => Some t | Some h => h t u end.
(** cluster_config_class(parent=self, **overrides): [traits] its trait names,
    [dflt] the operator's configuration, [coerce] the trait's own validation.
    Overrides that are no traits are ignored.  Validators that look at several
    traits are in Config_Model (simplified away here). *)
Definition make_config (traits : list bytes) (dflt : bytes -> V) (coerce : bytes -> V -> option V) (ov : list (bytes * V)) : option (list (bytes * V)) :=
  mapM (fun t => match dget t ov with
                 | Some v => w ← coerce t v; Some (t, w)
                 | None => Some (t, dflt t)
                 end) traits.
(** process_cluster_options (90-100); [None]: PublicException. *)
Definition process {U} traits dflt coerce handler (fs : list field) (u : U) (request : json) : option (list (bytes * json) * list (bytes * V)) :=
  opts ← parse_options fs request;
  ov ← get_configuration handler fs opts u;
  conf ← make_config traits dflt coerce ov;
  Some (opts, conf).

(** * The specification sent to clients: json_spec (148-154), json_type_spec. *)
Definition jopt {A} (f : A -> json) (x : option A) : json := match x with Some a => f a | None => JNull end.
Definition type_spec (k : kind) : list (bytes * json) :=
  match k with
  | KString => [(b_ "type", JStr (b_ "string"))]
  | KBool => [(b_ "type", JStr (b_ "bool"))]
  | KInt mn mx => [(b_ "type", JStr (b_ "int")); (b_ "min", jopt JInt mn); (b_ "max", jopt JInt mx)]
  | KFloat mn mx => [(b_ "type", JStr (b_ "float")); (b_ "min", jopt JFloat mn); (b_ "max", jopt JFloat mx)]
  | KSelect opts => [(b_ "type", JStr (b_ "select")); (b_ "options", JList (map (fun kv => JStr (fst kv)) opts))]
  | KMapping => [(b_ "type", JStr (b_ "mapping"))]
  end.
Definition json_spec (f : field) : json :=
  JObj [(b_ "field", JStr (f_name f)); (b_ "label", JStr (f_name f)); (b_ "default", f_default f); (b_ "spec", JObj (type_spec (f_kind f)))].
Definition get_specification (fs : list field) : list json := map json_spec fs.
End options.
Arguments kind : clear implicits.
Arguments field : clear implicits.
Arguments decl : clear implicits.

(** * The client.  [CSelect]: the tuple of options. *)
Section client.
Context (float_of : Z -> option fl).
Inductive ckind :=
| CString | CBool | CInt (mn mx : option Z) | CFloat (mn mx : option fl) | CSelect (opts : list bytes) | CMapping.
(** validate of each class (197-346). *)
Definition cvalidate (k : ckind) (x : json) : option json :=
  match k with
  | CString => match x with JStr _ => Some x | _ => None end
  | CBool => match x with JBool _ => Some x | _ => None end
  | CInt mn mx => z ← int_of x; if check_int mn mx z then Some x else None
  | CFloat mn mx => f ← to_float float_of x; if check_float mn mx f then Some (JFloat f) else None
  | CSelect opts => match x with JStr s => if bool_decide (s ∈ opts) then Some x else None | _ => None end
  | CMapping => match x with JObj _ => Some x | _ => None end
  end.
Record cfield := CField { cf_name : bytes; cf_value : json; cf_kind : ckind }.
(** Field.__init__ (152-155). *)
Definition cchecked (name : bytes) (d : json) (k : ckind) : option cfield := v ← cvalidate k d; Some (CField name v k).
(** The keyword arguments a class takes besides field, default and label: any
    other key in the specification is a TypeError. *)
Definition only (ks : list bytes) (o : list (bytes * json)) : bool := forallb (fun k => bool_decide (k ∈ ks)) (map fst o).
(** Select.__init__ (295-305). *)
Definition strings (l : list json) : option (list bytes) := mapM (fun x => match x with JStr s => Some s | _ => None end) l.
(** Field._from_spec (159-166) and the constructors. *)
Definition from_spec (s : json) : option cfield :=
  match s with
  | JObj o =>
      match dget (b_ "field") o, dget (b_ "default") o, dget (b_ "label") o, dget (b_ "spec") o with
      | Some (JStr name), Some d, Some _, Some (JObj ts) =>
          match dget (b_ "type") ts with
          | Some (JStr ty) =>
              let kw := ddel (b_ "type") ts in
              let arg k := default JNull (dget k kw) in
              if decide (ty = b_ "string") then if only [] kw then cchecked name d CString else None
              else if decide (ty = b_ "bool") then if only [] kw then cchecked name d CBool else None
              else if decide (ty = b_ "int") then
                if only [b_ "min"; b_ "max"] kw then '(a, b) ← int_bounds (arg (b_ "min")) (arg (b_ "max")); cchecked name d (CInt a b) else None
              else if decide (ty = b_ "float") then
                if only [b_ "min"; b_ "max"] kw then '(a, b) ← float_bounds float_of (arg (b_ "min")) (arg (b_ "max")); cchecked name d (CFloat a b) else None
              else if decide (ty = b_ "select") then
                if only [b_ "options"] kw then
                  match arg (b_ "options") with
                  | JList (x :: l) => ss ← strings (x :: l); cchecked name d (CSelect ss)
                  | _ => None
                  end
                else None
              else if decide (ty = b_ "mapping") then if only [] kw then cchecked name d CMapping else None
              else None
          | _ => None
          end
      | _, _, _, _ => None
      end
  | _ => None
  end.
(** Options.__init__ / _from_spec (46-51): an OrderedDict by name. *)
Definition coptions : Type := list (bytes * cfield).
Definition options_from_spec (specs : list json) : option coptions :=
  cs ← mapM from_spec specs;
  Some (foldl (fun d c => dset (cf_name c) c d) [] cs).
(** options[key] = value (103-107, 118-119, Field.set 171-172).  [None]: raises,
    nothing changes. *)
Definition oset (key : bytes) (x : json) (o : coptions) : option coptions :=
  c ← dget key o; v ← cvalidate (cf_kind c) x; Some (dset key (CField (cf_name c) v (cf_kind c)) o).
(** A program's assignments, each of which may fail. *)
Fixpoint osets (l : list (bytes * json)) (o : coptions) : coptions :=
  match l with [] => o | (k, x) :: l' => osets l' (default o (oset k x o)) end.
(** dict(options) (client.py _submit): what is sent. *)
Definition as_request (o : coptions) : list (bytes * json) := map (fun kc => (fst kc, cf_value (snd kc))) o.
End client.
