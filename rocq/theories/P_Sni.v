(** Properties C16, C17, C63, C64: the proxy's TCP side.  [cs] is what the client
    sends, cut into network chunks in any way; [bufsize] is the size of the
    buffer used to inspect the start (4096 in the code); [hello] is the server
    name found in a ClientHello by the TLS library, any function. *)
From Coq Require Import Ascii String Lia.
From stdpp Require Import prelude.
From Verif Require Import Router_Model ProxyLog_Model Sni_Model Sni_Spec Sni_Proofs.
Local Open Scope nat_scope.

(** C16. Reading the connection after the inspection yields what the client sent:
    the pieces read are the beginning of it, all of it when the end is reported;
    and with buffers that are not empty every read makes progress. *)
Theorem C16_passthrough : forall bufsize, 5 <= bufsize -> forall hello shared table dial cs f w ns ds e,
  handleConnection bufsize hello shared table dial cs = Some f -> continues f w -> reads ns w = (ds, e) ->
  (exists rest, concat cs = concat ds ++ rest) /\ (e = true -> concat ds = concat cs) /\
  (Forall (fun n => 0 < n) ns -> Forall (fun d => d <> []) ds /\ (length (concat cs) < length ns -> e = true)).
Proof. exact passthrough. Qed.
Print Assumptions C16_passthrough.

(** ... and from then on each peer receives, in order and without change, a prefix
    of what the other one sends. *)
Theorem C16_spliced_prefix : forall es x,
  got (other x) (splice_run splice_init es) `prefix_of` sent x (splice_run splice_init es).
Proof. exact splice_prefix. Qed.
Print Assumptions C16_spliced_prefix.

(** A ClientHello of 7 bytes (record length 2) arriving in three pieces, followed
    by more data; the name it announces is "daskgateway-c". *)
Definition ex_stream : list bytes := [[handshake; "3"%char]; ["1"%char; ascii_of_nat 0; ascii_of_nat 2; "h"%char]; ["i"%char; "x"%char; "y"%char]].
Definition ex_hello (b : bytes) : bytes := if decide (length b = 7) then (sniPrefix ++ b_ "c") else [].
Definition ex_table : list (bytes * bytes) := [(b_ "b", b_ "host:1"); (b_ "c", b_ "host:2")].
Example C16_example : exists w, handleConnection 16 ex_hello true ex_table (fun _ => true) ex_stream = Some (FSpliced (b_ "host:2") w) /\
  reads [2; 4; 1; 100; 100]%nat w = ([[handshake; "3"]; ["1"; ascii_of_nat 0; ascii_of_nat 2; "h"]; ["i"]; ["x"; "y"]]%char, true).
Proof. eexists. split; reflexivity. Qed.

(** C17. A connection is spliced to [a] iff its first record names a cluster whose
    table entry is [a] (and [a] answers); it goes to the HTTP side iff there is
    one and it names no cluster; otherwise it is closed.  Only the bytes count,
    not how they arrived, and there is always an outcome. *)
Theorem C17_spliced_iff : forall bufsize, 5 <= bufsize -> forall hello shared table dial cs a,
  (exists w, handleConnection bufsize hello shared table dial cs = Some (FSpliced a w)) <->
  exists c, names_cluster bufsize hello (concat cs) c /\ dget c table = Some a /\ a <> [] /\ dial a = true.
Proof. exact spliced_iff. Qed.
Print Assumptions C17_spliced_iff.
Theorem C17_http_iff : forall bufsize, 5 <= bufsize -> forall hello shared table dial cs,
  (exists w, handleConnection bufsize hello shared table dial cs = Some (FHttp w)) <->
  shared = true /\ concat cs <> [] /\ forall c, ~ names_cluster bufsize hello (concat cs) c.
Proof. exact http_iff. Qed.
Print Assumptions C17_http_iff.
Theorem C17_total : forall bufsize, 5 <= bufsize -> forall hello shared table dial cs,
  is_Some (handleConnection bufsize hello shared table dial cs).
Proof. exact handle_total. Qed.
Print Assumptions C17_total.

Example C17_example : names_cluster 16 ex_hello (concat ex_stream) (b_ "c") /\
  handleConnection 16 ex_hello true (take 1 ex_table) (fun _ => true) ex_stream = Some FClosed /\
  exists w, handleConnection 16 ex_hello true ex_table (fun _ => true) [b_ "GET"; b_ " /"] = Some (FHttp w).
Proof.
  split; [|split; [reflexivity|eexists; reflexivity]].
  exists [handshake; "3"; "1"; ascii_of_nat 0; ascii_of_nat 2; "h"; "i"]%char. split; [|split; [simpl; lia|reflexivity]].
  exists "3"%char, "1"%char, (ascii_of_nat 0), (ascii_of_nat 2), ["h"; "i"]%char, ["x"; "y"]%char. repeat split.
Qed.

(** C63. "A peer that finished sending still receives what the other one sends."
    A direction is complete when it ends, provided the other peer has not
    finished; and as long as neither finished, every turn delivers. *)
Theorem C63_complete_partial : forall es x, let s := splice_run splice_init es in
  ~ copying_from x s -> ~ finished_sending (other x) s -> got (other x) s = sent x s /\ finished_sending x s.
Proof. exact splice_complete. Qed.
Print Assumptions C63_complete_partial.
Theorem C63_live_partial : forall es x n b, let s := splice_run splice_init es in
  ~ finished_sending Client s -> ~ finished_sending Scheduler s -> length (sent x s) <= n ->
  got (other x) (splice_step s (Copy x n b)) = sent x s.
Proof. exact splice_live. Qed.
Print Assumptions C63_live_partial.

Definition ex_half_close : list sevent :=
  [PSends Client (b_ "query"); Copy Client 100 false; PFinishes Client; Copy Client 100 false; PSends Scheduler (b_ "reply")].
Example C63_example : let s := splice_run splice_init (take 4 ex_half_close) in
  ~ copying_from Client s /\ ~ finished_sending Scheduler s /\ got Scheduler s = b_ "query".
Proof. vm_compute. done. Qed.
Example C63_example_2 : let s := splice_run splice_init (take 1 ex_half_close) in
  ~ finished_sending Client s /\ ~ finished_sending Scheduler s /\ sent Client s = b_ "query".
Proof. vm_compute. done. Qed.

(** False in general: proxyConnections closes the wrong ends.  The client sends
    its query and finishes; the reply is never delivered, whatever happens next. *)
Theorem C63_half_close_refuted : exists es, let s := splice_run splice_init es in
  finished_sending Client s /\ ~ finished_sending Scheduler s /\ got Scheduler s = sent Client s /\ sent Scheduler s = b_ "reply" /\
  forall es', got Client (splice_run s es') = [].
Proof.
  exists ex_half_close. split; [reflexivity|]. split; [vm_compute; done|]. split; [reflexivity|]. split; [reflexivity|].
  intros es'. rewrite wr_run; reflexivity.
Qed.
Print Assumptions C63_half_close_refuted.

(** C64. "A TLS client that names a registered cluster is connected to it."  True
    for first records that fit in the buffer (C17_spliced_iff): *)
Theorem C64_reaches_partial : forall bufsize, 5 <= bufsize -> forall hello shared table dial cs a rec c,
  first_record (concat cs) rec -> length rec <= bufsize -> hello rec = sniPrefix ++ c -> dget c table = Some a -> a <> [] -> dial a = true ->
  exists w, handleConnection bufsize hello shared table dial cs = Some (FSpliced a w).
Proof. intros bufsize Hs hello shared table dial cs a rec c H1 H2 H3 H4 H5 H6. apply spliced_iff; [done|]. exists c. split; [exists rec; done|done]. Qed.
Print Assumptions C64_reaches_partial.
(** False for larger ones: a ClientHello of 4097 bytes is never recognised. *)
Theorem C64_reaches_refuted : exists rec, first_record rec rec /\ length rec = Z.to_nat 4097 /\
  forall hello shared table dial a w, handleConnection (Z.to_nat 4096) hello shared table dial [rec] <> Some (FSpliced a w).
Proof.
  set (body := replicate (Z.to_nat 4092) "x"%char). set (rec := handshake :: "3"%char :: "1"%char :: ascii_of_nat 15 :: ascii_of_nat 252 :: body).
  assert (Hl : length rec = Z.to_nat 4097) by (unfold rec, body; cbn [length]; rewrite replicate_length; lia).
  assert (Hr : first_record rec rec).
  { exists "3"%char, "1"%char, (ascii_of_nat 15), (ascii_of_nat 252), body, []. rewrite app_nil_r. split; [done|]. split; [|done].
    unfold body. rewrite replicate_length. rewrite !nat_ascii_embedding by (vm_compute; lia). lia. }
  exists rec. split; [done|]. split; [done|]. intros hello shared table dial a w. apply big_hello; [lia|done|lia].
Qed.
Print Assumptions C64_reaches_refuted.
