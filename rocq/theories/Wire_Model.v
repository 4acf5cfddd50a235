(** Model of the messages by which the gateway tells the proxy of changes of routes:
    the text written by routes_handler
    (dask-gateway-server/dask_gateway_server/proxy/core.py:394-408), and its reading by
    evIter (dask-gateway-server/dask-gateway-proxy/cmd/dask-gateway-proxy/main.go:261-296)
    and the loop of watchRoutes around it (355-375).

    From the standard libraries: Python's json.dumps with its default arguments, Go's
    bufio.Scanner with ScanLines and its largest token, and json.Unmarshal.  Left out of
    the latter: numbers with a fraction or an exponent and bytes beyond ASCII, which are
    taken for errors; json.dumps writes neither. *)
From Coq Require Import Ascii String ZArith NArith.
From stdpp Require Import prelude.
From Verif Require Import Router_Model ProxyLog_Model Manifest_Model Addr_Model.
Local Open Scope N_scope.

(** A str of Python, and a string of Go after decoding: code points. *)
Notation text := (list N).
(** A constant. *)
Definition t_ (s : string) : text := map N_of_ascii (list_ascii_of_string s).

Inductive json := JNull | JBool (b : bool) | JNum (z : Z) | JStr (s : text) | JArr (l : list json) | JObj (l : list (text * json)).

(** * json.dumps (json/encoder.py: ESCAPE_ASCII, ESCAPE_DCT, py_encode_basestring_ascii;
    item_separator ", ", key_separator ": "). *)
Definition hexdigit (d : N) : ascii := ascii_of_N (if d <? 10 then 48 + d else 87 + d).
Definition hex4 (n : N) : bytes := [hexdigit (n / 4096 mod 16); hexdigit (n / 256 mod 16); hexdigit (n / 16 mod 16); hexdigit (n mod 16)].
Definition bs : ascii := "\"%char.
Definition dq : ascii := """"%char.
Definition u4 (n : N) : bytes := bs :: "u"%char :: hex4 n.
Definition esc (c : N) : bytes :=
  if c =? 34 then [bs; dq] else if c =? 92 then [bs; bs]
  else if c =? 10 then [bs; "n"%char] else if c =? 13 then [bs; "r"%char] else if c =? 9 then [bs; "t"%char]
  else if c =? 12 then [bs; "f"%char] else if c =? 8 then [bs; "b"%char]
  else if (32 <=? c) && (c <=? 126) then [ascii_of_N c]
  else if c <? 65536 then u4 c
  else u4 (55296 + (c - 65536) / 1024) ++ u4 (56320 + (c - 65536) mod 1024).
Definition dump_str (s : text) : bytes := dq :: flat_map esc s ++ [dq].
(** [sep.join(l)]. *)
Fixpoint join (sep : bytes) (l : list bytes) : bytes :=
  match l with [] => [] | [x] => x | x :: l' => x ++ sep ++ join sep l' end.
Fixpoint dumps (v : json) : bytes :=
  match v with
  | JNull => b_ "null"
  | JBool true => b_ "true"
  | JBool false => b_ "false"
  | JNum z => dec z
  | JStr s => dump_str s
  | JArr l => "["%char :: join (b_ ", ") (map dumps l) ++ b_ "]"
  | JObj l => "{"%char :: join (b_ ", ") (map (fun kv => dump_str (fst kv) ++ b_ ": " ++ dumps (snd kv)) l) ++ b_ "}"
  end.

(** * What the gateway sends: core.py 308, 327, 333, 345, 352, 407-408.  A removed route
    is sent without target. *)
Record wroute := WRoute { w_kind : kind; w_name : text; w_target : option text }.
Record wevent := WEvent { we_id : Z; we_type : etype; we_route : wroute }.
Definition route_json (r : wroute) : json :=
  JObj ((match w_kind r with SNI => [(t_ "kind", JStr (t_ "SNI")); (t_ "sni", JStr (w_name r))]
                           | PATH => [(t_ "kind", JStr (t_ "PATH")); (t_ "path", JStr (w_name r))] end) ++
        match w_target r with Some t => [(t_ "target", JStr t)] | None => [] end).
Definition event_json (e : wevent) : json :=
  JObj [(t_ "id", JNum (we_id e)); (t_ "type", JStr (match we_type e with TPut => t_ "PUT" | TDelete => t_ "DELETE" end)); (t_ "route", route_json (we_route e))].
Definition msg_json (evs : list wevent) : json := JObj [(t_ "events", JArr (map event_json evs))].
Definition newline : ascii := ascii_of_N 10.
Definition line (evs : list wevent) : bytes := dumps (msg_json evs) ++ [newline].

(** * bufio.Scanner with ScanLines: the next line, of at most 64 KiB with its newline
    (MaxScanTokenSize; the split function is asked before the buffer is found full).
    [body] is all that arrives before the stream ends or breaks: what is left at the end
    is a line too, even after a read error. *)
Definition max_token : nat := N.to_nat 65536.
Fixpoint until_newline (s : bytes) : bytes * option bytes :=
  match s with
  | [] => ([], None)
  | c :: s' => if decide (c = newline) then ([], Some s') else let '(l, r) := until_newline s' in (c :: l, r)
  end.
(** dropCR. *)
Definition drop_cr (s : bytes) : bytes :=
  match rev s with c :: r => if decide (c = ascii_of_N 13) then rev r else s | [] => s end.
(** None: Scan returns false. *)
Definition scan (body : bytes) : option (bytes * bytes) :=
  match until_newline body with
  | (l, Some rest) => if (length l <? max_token)%nat then Some (drop_cr l, rest) else None
  | ([], None) => None
  | (l, None) => if (length l <? max_token)%nat then Some (drop_cr l, []) else None
  end.

(** * json.Unmarshal: the syntax (encoding/json scanner.go, decode.go unquoteBytes). *)
Definition is_ws (c : ascii) : bool := bool_decide (c = " "%char \/ c = ascii_of_N 9 \/ c = ascii_of_N 10 \/ c = ascii_of_N 13).
Fixpoint skip (s : bytes) : bytes := match s with c :: s' => if is_ws c then skip s' else s | [] => [] end.
Definition unhex (c : ascii) : option N :=
  let n := N_of_ascii c in
  if (48 <=? n) && (n <=? 57) then Some (n - 48)
  else if (97 <=? n) && (n <=? 102) then Some (n - 87)
  else if (65 <=? n) && (n <=? 70) then Some (n - 55) else None.
Definition unhex4 (a b c d : ascii) : option N :=
  match unhex a, unhex b, unhex c, unhex d with Some a, Some b, Some c, Some d => Some (4096 * a + 256 * b + 16 * c + d) | _, _, _, _ => None end.
Definition unesc (e : ascii) : option N :=
  if decide (e = dq) then Some 34 else if decide (e = bs) then Some 92 else if decide (e = "/"%char) then Some 47
  else if decide (e = "b"%char) then Some 8 else if decide (e = "f"%char) then Some 12 else if decide (e = "n"%char) then Some 10
  else if decide (e = "r"%char) then Some 13 else if decide (e = "t"%char) then Some 9 else None.
(** The rest of a string after the opening quote: its characters, with surrogates not yet
    put together, and what follows the closing quote. *)
Definition cons_to (n : N) (r : option (text * bytes)) : option (text * bytes) := match r with Some (t, s) => Some (n :: t, s) | None => None end.
Fixpoint units (s : bytes) : option (text * bytes) :=
  match s with
  | [] => None
  | c :: s1 =>
      if decide (c = dq) then Some ([], s1)
      else if decide (c = bs) then
        match s1 with
        | [] => None
        | e :: s2 =>
            if decide (e = "u"%char) then
              match s2 with
              | x1 :: x2 :: x3 :: x4 :: s3 => match unhex4 x1 x2 x3 x4 with Some n => cons_to n (units s3) | None => None end
              | _ => None
              end
            else match unesc e with Some n => cons_to n (units s2) | None => None end
        end
      else if (N_of_ascii c <? 32) || (128 <=? N_of_ascii c) then None
      else cons_to (N_of_ascii c) (units s1)
  end.
(** utf16.DecodeRune: a surrogate that is not half of a pair becomes U+FFFD. *)
Definition is_high (n : N) : bool := (55296 <=? n) && (n <? 56320).
Definition is_low (n : N) : bool := (56320 <=? n) && (n <? 57344).
Fixpoint pair_up (l : text) : text :=
  match l with
  | [] => []
  | a :: l1 =>
      match l1 with
      | b :: l2 => if is_high a && is_low b then (65536 + (a - 55296) * 1024 + (b - 56320)) :: pair_up l2
                   else (if is_high a || is_low a then 65533 else a) :: pair_up l1
      | [] => [if is_high a || is_low a then 65533 else a]
      end
  end.
Definition parse_str (s : bytes) : option (text * bytes) := match units s with Some (t, r) => Some (pair_up t, r) | None => None end.
(** A number without fraction and exponent. *)
Definition digits_of (s : bytes) : bytes * bytes := until (fun c => negb (is_digit c)) s.
Definition parse_nat (s : bytes) : option (Z * bytes) :=
  match s with
  | c :: s' => if decide (c = "0"%char) then Some (0%Z, s')
               else if is_digit c then let '(ds, r) := digits_of s in Some (number 0 ds, r) else None
  | [] => None
  end.
Definition parse_num (s : bytes) : option (Z * bytes) :=
  match s with
  | c :: s' => if decide (c = "-"%char) then match parse_nat s' with Some (z, r) => Some ((- z)%Z, r) | None => None end else parse_nat s
  | [] => None
  end.
(** A given word. *)
Fixpoint lit (w s : bytes) : option bytes :=
  match w, s with
  | [], _ => Some s
  | a :: w', b :: s' => if decide (a = b) then lit w' s' else None
  | _ :: _, [] => None
  end.
(** A value; elements up to the closing bracket; members up to the closing brace. *)
Fixpoint value (n : nat) (s : bytes) : option (json * bytes) :=
  match n with
  | O => None
  | S n =>
      match skip s with
      | [] => None
      | c :: r =>
          if decide (c = dq) then match parse_str r with Some (t, r') => Some (JStr t, r') | None => None end
          else if decide (c = "{"%char) then
            match skip r with
            | c' :: r' => if decide (c' = "}"%char) then Some (JObj [], r') else match members n r with Some (l, r'') => Some (JObj l, r'') | None => None end
            | [] => None
            end
          else if decide (c = "["%char) then
            match skip r with
            | c' :: r' => if decide (c' = "]"%char) then Some (JArr [], r') else match elements n r with Some (l, r'') => Some (JArr l, r'') | None => None end
            | [] => None
            end
          else if decide (c = "n"%char) then match lit (b_ "ull") r with Some r' => Some (JNull, r') | None => None end
          else if decide (c = "t"%char) then match lit (b_ "rue") r with Some r' => Some (JBool true, r') | None => None end
          else if decide (c = "f"%char) then match lit (b_ "alse") r with Some r' => Some (JBool false, r') | None => None end
          else match parse_num (c :: r) with Some (z, r') => Some (JNum z, r') | None => None end
      end
  end
with elements (n : nat) (s : bytes) : option (list json * bytes) :=
  match n with
  | O => None
  | S n =>
      match value n s with
      | None => None
      | Some (v, r) =>
          match skip r with
          | c :: r' => if decide (c = ","%char) then match elements n r' with Some (l, r'') => Some (v :: l, r'') | None => None end
                       else if decide (c = "]"%char) then Some ([v], r') else None
          | [] => None
          end
      end
  end
with members (n : nat) (s : bytes) : option (list (text * json) * bytes) :=
  match n with
  | O => None
  | S n =>
      match skip s with
      | c0 :: s1 =>
          if decide (c0 = dq) then
            match parse_str s1 with
            | None => None
            | Some (k, s2) =>
                match skip s2 with
                | c1 :: s3 =>
                    if decide (c1 = ":"%char) then
                      match value n s3 with
                      | None => None
                      | Some (v, r) =>
                          match skip r with
                          | c :: r' => if decide (c = ","%char) then match members n r' with Some (l, r'') => Some ((k, v) :: l, r'') | None => None end
                                       else if decide (c = "}"%char) then Some ([(k, v)], r') else None
                          | [] => None
                          end
                      end
                    else None
                | [] => None
                end
            end
          else None
      | [] => None
      end
  end.
Definition fuel (s : bytes) : nat := (2 * length s + 2)%nat.
Definition parse_json (s : bytes) : option json :=
  match value (fuel s) s with Some (v, r) => match skip r with [] => Some v | _ => None end | None => None end.

(** * json.Unmarshal: filling EventsMsg, Event and Route (main.go:31-47).  A field takes
    the members whose name is equal to its own up to case, the last one counts; a member
    of the wrong type is an error; without member, or with null, the field is empty. *)
Definition lower (c : N) : N := if (65 <=? c) && (c <=? 90) then c + 32 else c.
Fixpoint field (name : text) (l : list (text * json)) : json :=
  match l with
  | [] => JNull
  | (k, v) :: l' => match field name l' with JNull => if decide (map lower k = name) then v else JNull | w => w end
  end.
Record groute := GRoute { gr_kind : text; gr_sni : text; gr_path : text; gr_target : text }.
Record gevt := GEvt { ge_id : Z; ge_type : text; ge_route : groute }.
Definition as_str (v : json) : option text := match v with JNull => Some [] | JStr s => Some s | _ => None end.
Definition as_u64 (v : json) : option Z := match v with JNull => Some 0%Z | JNum z => if ((0 <=? z) && (z <? 2 ^ 64))%Z then Some z else None | _ => None end.
Definition as_route (v : json) : option groute :=
  match v with
  | JNull => Some (GRoute [] [] [] [])
  | JObj l => k ← as_str (field (t_ "kind") l); s ← as_str (field (t_ "sni") l); p ← as_str (field (t_ "path") l); t ← as_str (field (t_ "target") l); Some (GRoute k s p t)
  | _ => None
  end.
Definition as_event (v : json) : option gevt :=
  match v with
  | JNull => Some (GEvt 0 [] (GRoute [] [] [] []))
  | JObj l => i ← as_u64 (field (t_ "id") l); t ← as_str (field (t_ "type") l); r ← as_route (field (t_ "route") l); Some (GEvt i t r)
  | _ => None
  end.
Definition as_msg (v : json) : option (list gevt) :=
  match v with
  | JNull => Some []
  | JObj l => match field (t_ "events") l with JNull => Some [] | JArr vs => mapM as_event vs | _ => None end
  | _ => None
  end.
Definition unmarshal (s : bytes) : option (list gevt) := v ← parse_json s; as_msg v.

(** * evIter.Next until it returns false (275-288): the messages, and whether Err is set
    (290-292).  The error of the scanner is not looked at. *)
Inductive ending := NoError | Failed.
Fixpoint read_n (n : nat) (body : bytes) : list (list gevt) * ending :=
  match n with
  | O => ([], NoError)
  | S n => match scan body with
           | None => ([], NoError)
           | Some (l, rest) => match unmarshal l with
                               | None => ([], Failed)
                               | Some evs => let '(ms, e) := read_n n rest in (evs :: ms, e)
                               end
           end
  end.
Definition read_all (body : bytes) : list (list gevt) * ending := read_n (S (length body)) body.

(** * The proxy and the gateway (ProxyLog_Model) with the limit on lines: a line that is
    too long ends the stream without error (276-279, 371), and the same position is
    watched again (355-356) without a pause. *)
Definition to_wire (e : gevent) : wevent :=
  let r := ev_route e in
  WEvent (ev_id e) (ev_type e) (WRoute (rt_kind r) (map N_of_ascii (rt_name r)) (match ev_type e with TPut => Some (map N_of_ascii (rt_target r)) | TDelete => None end)).
Definition fits (evs : list gevent) : bool := (length (dumps (msg_json (map to_wire evs))) <? max_token)%nat.
Definition wire_step (parse : bytes -> option goURL) (s : sys) (e : event) : sys :=
  match e, p_phase (s_px s) with
  | SRead, Watching _ (evs :: _) => if fits evs then step parse s SRead else step parse s SEnd
  | _, _ => step parse s e
  end.
Definition wire_runs (parse : bytes -> option goURL) (s : sys) (es : list event) : sys := fold_left (wire_step parse) es s.
