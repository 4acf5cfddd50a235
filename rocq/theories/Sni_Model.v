(** Model of the proxy's TCP side: dask-gateway-proxy/pkg/sni/sni.go and
    handleConnection / proxyConnections of
    dask-gateway-proxy/cmd/dask-gateway-proxy/main.go:477-536.

    A connection being read is the list of pieces in which the kernel hands out
    what the peer sent; after the last piece the stream ends or breaks.  A TCP
    read never returns 0 bytes without an error, so empty pieces are skipped.
    Left out: addresses, logging, the 10 s limit of the dial (its outcome is a
    parameter), errors of CloseRead/CloseWrite (the code ignores them). *)
From Coq Require Import Ascii String.
From stdpp Require Import prelude.
From Verif Require Import Router_Model ProxyLog_Model.
Local Open Scope nat_scope.

(** net.TCPConn.Read with a buffer of [n] bytes; [None]: io.EOF or an error. *)
Fixpoint conn_read (n : nat) (cs : list bytes) : option (bytes * list bytes) :=
  match cs with
  | [] => None
  | [] :: cs' => conn_read n cs'
  | c :: cs' => Some (take n c, drop n c :: cs')
  end.

(** * bufio.Reader (Go standard library), as far as Peek and Buffered use it.
    Nothing is ever consumed, so the unread part starts at 0.  bufio.NewReader
    uses a buffer of 4096 bytes; here its size is a parameter. *)
Record bufr := Buf { b_buf : bytes; b_src : list bytes; b_err : bool }.
Section bufio.
Context (bufsize : nat).
Definition fill (b : bufr) : bufr :=
  match conn_read (bufsize - length (b_buf b)) (b_src b) with
  | Some (d, src) => Buf (b_buf b ++ d) src (b_err b)
  | None => Buf (b_buf b) [] true
  end.
(** The loop of Peek; [None]: out of fuel. *)
Fixpoint peek_loop (fuel n : nat) (b : bufr) : option bufr :=
  match fuel with
  | O => None
  | S f => if decide (length (b_buf b) < n /\ length (b_buf b) < bufsize /\ b_err b = false)
           then peek_loop f n (fill b) else Some b
  end.
(** Peek: the bytes, whether there is an error, the reader. *)
Definition peek (n : nat) (b : bufr) : option (bytes * bool * bufr) :=
  b' ← peek_loop (S (S bufsize)) n b;
  Some (if decide (bufsize < n) then (b_buf b', true, b')
        else if decide (length (b_buf b') < n) then (b_buf b', true, Buf (b_buf b') (b_src b') false)
        else (take n (b_buf b'), false, b')).
End bufio.

(** peekedTCPConn (sni.go:29-33) and its Read (35-45). *)
Record wrapped := Wrapped { w_peeked : bytes; w_src : list bytes }.
Definition wread (n : nat) (w : wrapped) : option (bytes * wrapped) :=
  match w_peeked w with
  | [] => p ← conn_read n (w_src w); Some (fst p, Wrapped [] (snd p))
  | pk => Some (take n pk, Wrapped (drop n pk) (w_src w))
  end.
(** wrapPeeked (47-50). *)
Definition wrapPeeked (bufsize : nat) (b : bufr) : option wrapped :=
  p ← peek bufsize (length (b_buf b)) b; Some (Wrapped (fst (fst p)) (b_src (snd p))).

(** ReadSNI (60-94).  [hello] is the name crypto/tls hands to GetConfigForClient
    for these bytes, "" if it does not get that far: an arbitrary function. *)
Section sni.
Context (bufsize : nat) (hello : bytes -> bytes).

Inductive sni_result := SniErr | Sni (name : bytes) (isTLS : bool) (w : wrapped).
Definition handshake : ascii := ascii_of_nat 22.
Definition ReadSNI (cs : list bytes) : option sni_result :=
  p1 ← peek bufsize 1 (Buf [] cs false);
  let '(hdr, err, b1) := p1 in
  if err : bool then Some SniErr
  else
    c0 ← hdr !! 0;                                                   (* hdr[0] *)
    if decide (c0 <> handshake) then w ← wrapPeeked bufsize b1; Some (Sni [] false w)
    else
      p5 ← peek bufsize 5 b1;
      let '(hdr, err, b2) := p5 in
      if err : bool then w ← wrapPeeked bufsize b2; Some (Sni [] false w)
      else
        h3 ← hdr !! 3; h4 ← hdr !! 4;
        let recLen := nat_of_ascii h3 * 256 + nat_of_ascii h4 in
        pr ← peek bufsize (5 + recLen) b2;
        let '(helloBytes, err, b3) := pr in
        w ← wrapPeeked bufsize b3;
        Some (if err : bool then Sni [] true w else Sni (hello helloBytes) true w).

(** handleConnection (main.go:477-526).  [shared]: there is a forwarder, HTTP
    and TCP use one port; [dial]: whether the destination accepts. *)
Inductive fate :=
| FClosed
| FHttp (w : wrapped)
| FSpliced (addr : bytes) (w : wrapped).
Definition sniPrefix : bytes := b_ "daskgateway-".
Definition handleConnection (shared : bool) (table : list (bytes * bytes)) (dial : bytes -> bool) (cs : list bytes) : option fate :=
  r ← ReadSNI cs;
  Some match r with
       | SniErr => FClosed
       | Sni name isTLS w =>
           if negb isTLS || negb (bool_decide (take (length sniPrefix) name = sniPrefix)) then
             if shared then FHttp w else FClosed
           else
             match dget (drop (length sniPrefix) name) table with
             | None | Some [] => FClosed
             | Some addr => if dial addr then FSpliced addr w else FClosed
             end
       end.
End sni.

(** * The spliced connection: two goroutines running proxyConnections (528-536).
    "client" is pInConn, "scheduler" is outConn. *)
Inductive side := Client | Scheduler.
Global Instance side_eq_dec : EqDecision side.
Proof. solve_decision. Defined.
Definition other (x : side) : side := match x with Client => Scheduler | Scheduler => Client end.
(** What one peer did, and the proxy's end of its connection.  [e_sent]: all it
    sent; [e_fin]: it finished sending; [e_read]: how much the proxy has read;
    [e_got]: what the proxy wrote to it; [e_rd], [e_wr]: CloseRead / CloseWrite
    was called on it; [e_copying]: the goroutine that reads from it is running. *)
Record peer := Peer { e_sent : bytes; e_fin : bool; e_read : nat; e_got : bytes; e_rd : bool; e_wr : bool; e_copying : bool }.
Record splice := Splice { sp_client : peer; sp_sched : peer }.
Definition sp_get (x : side) (s : splice) : peer := match x with Client => sp_client s | Scheduler => sp_sched s end.
Definition sp_set (x : side) (p : peer) (s : splice) : splice :=
  match x with Client => Splice p (sp_sched s) | Scheduler => Splice (sp_client s) p end.
Definition peer_init : peer := Peer [] false 0 [] false false true.
Definition splice_init : splice := Splice peer_init peer_init.

Inductive sevent :=
| PSends (x : side) (bs : bytes)
| PFinishes (x : side)
| Copy (x : side) (n : nat) (discard : bool).
   (* the goroutine reading from x makes its next Read of at most n bytes and
      writes them; [discard]: the platform discards data after CloseRead *)

(** io.Copy(in, out) returned: [in] is the other side, [out] the side [x] that was
    read; in.CloseRead(), out.CloseWrite() (533-534). *)
Definition copy_ends (x : side) (s : splice) : splice :=
  let px := sp_get x s in
  let s1 := sp_set x (Peer (e_sent px) (e_fin px) (e_read px) (e_got px) (e_rd px) true false) s in
  let py := sp_get (other x) s1 in
  sp_set (other x) (Peer (e_sent py) (e_fin py) (e_read py) (e_got py) true (e_wr py) (e_copying py)) s1.

Definition splice_step (s : splice) (e : sevent) : splice :=
  match e with
  | PSends x bs =>
      let p := sp_get x s in
      if e_fin p then s else sp_set x (Peer (e_sent p ++ bs) (e_fin p) (e_read p) (e_got p) (e_rd p) (e_wr p) (e_copying p)) s
  | PFinishes x =>
      let p := sp_get x s in sp_set x (Peer (e_sent p) true (e_read p) (e_got p) (e_rd p) (e_wr p) (e_copying p)) s
  | Copy x n discard =>
      let p := sp_get x s in
      if e_copying p then
        if e_rd p && discard then copy_ends x s                       (* Read: EOF *)
        else
          match take n (drop (e_read p) (e_sent p)) with
          | [] => if decide (e_read p = length (e_sent p)) then
                    if e_fin p || e_rd p then copy_ends x s            (* Read: EOF *)
                    else s                                            (* Read blocks *)
                  else s
          | d =>
              let s1 := sp_set x (Peer (e_sent p) (e_fin p) (e_read p + length d) (e_got p) (e_rd p) (e_wr p) (e_copying p)) s in
              let py := sp_get (other x) s1 in
              if e_wr py then copy_ends x s1                            (* Write: error *)
              else sp_set (other x) (Peer (e_sent py) (e_fin py) (e_read py) (e_got py ++ d) (e_rd py) (e_wr py) (e_copying py)) s1
          end
      else s
  end.
Definition splice_run (s : splice) (es : list sevent) : splice := fold_left splice_step es s.
