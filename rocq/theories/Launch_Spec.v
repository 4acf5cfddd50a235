(** Vocabulary for C85 and C86. *)
From Coq Require Import Ascii String.
From stdpp Require Import prelude.
From Verif Require Import Router_Model ProxyLog_Model Launch_Model.
Local Open Scope nat_scope.

(** The variables the gateway sets for a process: where the gateway is, the cluster's
    token and name, that connections are encrypted, and the files with the certificate
    and the key. *)
Definition tls_variable (r : role) (what : string) : bytes :=
  b_ ("DASK_DISTRIBUTED__COMM__TLS__" ++ (match r with Scheduler => "SCHEDULER__" | Worker => "WORKER__" end) ++ what).
Definition required (b : backend) (g : gateway) (c : cluster) (r : role) : list (bytes * bytes) :=
  [(b_ "DASK_GATEWAY_API_URL", gw_url g);
   (b_ "DASK_GATEWAY_API_TOKEN", c_token c);
   (b_ "DASK_GATEWAY_CLUSTER_NAME", c_name c);
   (b_ "DASK_DISTRIBUTED__COMM__REQUIRE_ENCRYPTION", b_ "True");
   (b_ "DASK_DISTRIBUTED__COMM__TLS__CA_FILE", fst (tls_paths b c));
   (tls_variable r "CERT", fst (tls_paths b c));
   (tls_variable r "KEY", snd (tls_paths b c))].
(** Set by the gateway in any process. *)
Definition set_by_gateway (r : role) (k : bytes) : Prop :=
  k ∈ map b_ ["DASK_GATEWAY_API_URL"; "DASK_GATEWAY_API_TOKEN"; "DASK_GATEWAY_CLUSTER_NAME";
              "DASK_DISTRIBUTED__COMM__REQUIRE_ENCRYPTION"; "DASK_DISTRIBUTED__COMM__TLS__CA_FILE"]%string
  \/ k = tls_variable r "CERT" \/ k = tls_variable r "KEY".
(** The variables the local backend takes from the gateway's own environment, as the
    operator listed them, and the user's name. *)
Definition inherited (b : backend) : list bytes := match b with Local l _ => l | _ => [] end.
(** The operator does not list one of the gateway's own variables there. *)
Definition sane (b : backend) : Prop :=
  forall r k, k ∈ inherited b -> ~ set_by_gateway r k.
Definition asked (c : cluster) (k : bytes) : option bytes := dget k (dupdate [] (c_env c)).
(** What the value of a variable that the gateway does not set should be. *)
Definition expected (b : backend) (c : cluster) (k : bytes) : option bytes :=
  match b with
  | Local l environ =>
      if decide (k = b_ "USER") then Some (c_user c)
      else if decide (k ∈ l) then match dget k environ with Some v => Some v | None => asked c k end
      else asked c k
  | _ => asked c k
  end.

(** * How batch systems read -v / --export: a list separated by commas; an entry name=value
    sets a variable, an entry name copies it from the environment of the submit command. *)
Fixpoint split_on (sep : ascii) (l : bytes) : list bytes :=
  match l with
  | [] => [[]]
  | x :: l' => if decide (x = sep) then [] :: split_on sep l'
               else match split_on sep l' with [] => [[x]] | w :: ws => (x :: w) :: ws end
  end.
Definition comma : ascii := ","%char.
Definition equals : ascii := "="%char.
Definition blank : ascii := " "%char.
Definition job_var (env job : list (bytes * bytes)) (item : bytes) : list (bytes * bytes) :=
  match split_on equals item with
  | [name] => match dget name env with Some v => dset name v job | None => job end
  | name :: value => dset name (join [equals] value) job
  | [] => job
  end.
Definition job_env (j : jobspec) : list (bytes * bytes) := fold_left (job_var (j_env j)) (split_on comma (j_export j)) [].
Definition plain_name (k : bytes) : Prop := comma ∉ k /\ equals ∉ k.

(** * How sh reads a line without special characters: as its words. *)
Definition plain_char (c : ascii) : bool :=
  let n := nat_of_ascii c in
  (48 <=? n) && (n <=? 57) || (65 <=? n) && (n <=? 90) || (97 <=? n) && (n <=? 122) || bool_decide (c ∈ list_ascii_of_string "-_./:,+@%").
Definition plain_word (w : bytes) : Prop := w <> [] /\ Forall (fun c => plain_char c = true) w.
Definition sh_words (line : bytes) : option (list bytes) :=
  if forallb (fun c => plain_char c || bool_decide (c = blank)) line
  then Some (List.filter (fun w => match w with [] => false | _ => true end) (split_on blank line)) else None.
Definition last_line (script : bytes) : bytes := List.last (split_on (ascii_of_nat 10) script) [].
(** A command line's options: flags with their values. *)
Definition flags (opts : list (bytes * bytes)) : list bytes := concat (map (fun kv => [fst kv; snd kv]) opts).
