(** Reading through a TLS socket: the code that reads requests, written as a
    program over "read at most n bytes", so that it can be run over a plain
    connection and over a TLS socket.  Both are IReaders behind Socket
    (src/io/sps_io_socket.cpp:79-98): Socket::read passes the call on and
    Socket::read_fully loops over it, so the read_fully of the TLS socket
    (sps_sys_st_io_ssl.cpp:396-414) is never called. *)
From Verif Require Import Base M_IO M_Text M_Http M_Tls.

(** A program that reads: what to do with the bytes, and with an error. *)
Inductive prog (A : Type) := PRet (a : A) | PRead (n : Z) (k : list Z -> prog A) (ke : Z -> prog A).
Arguments PRet {A}. Arguments PRead {A}.
Fixpoint pbind {A B} (p : prog A) (f : A -> prog B) : prog B :=
  match p with PRet a => f a | PRead n k ke => PRead n (fun d => pbind (k d) f) (fun c => pbind (ke c) f) end.
(** Over a plain connection: StTcpSocket::read behind Socket::read. *)
Fixpoint run_plain {A} (p : prog A) (t : transport) : res A * transport :=
  match p with
  | PRet a => (Ok a, t)
  | PRead n k ke =>
      match t_read t n with
      | (Ok d, t1) => run_plain (k d) t1
      | (Err c, t1) => run_plain (ke c) t1
      | (UB, t1) => (UB, t1)
      | (Fuel, t1) => (Fuel, t1)
      end
  end.
(** Over a TLS socket: StSSLSocket::read (M_Tls.v [ssl_read]) behind it. *)
Fixpoint run_tls {E A} (fuel : nat) (g : reader E) (p : prog A) (st : E * list Z * transport) : res A * (E * list Z * transport) :=
  match p with
  | PRet a => (Ok a, st)
  | PRead n k ke =>
      let '(e, rb, io) := st in
      match ssl_read fuel g e rb io n with
      | (Ok d, st1) => run_tls fuel g (k d) st1
      | (Err c, st1) => run_tls fuel g (ke c) st1
      | (UB, st1) => (UB, st1)
      | (Fuel, st1) => (Fuel, st1)
      end
  end.

(** Socket::read_fully, sps_io_socket.cpp:79-94; see [read_fully] in M_IO.v. *)
Fixpoint rf_prog (fuel : nat) (size : Z) (acc : list Z) : prog (res (list Z)) :=
  match fuel with
  | O => PRet Fuel
  | S f => PRead (size - zlen acc)
             (fun d => if zlen (acc ++ d) <? size then rf_prog f size (acc ++ d) else PRet (Ok (acc ++ d)))
             (fun c => PRet (Err c))
  end.
Definition read_fully_prog (size : Z) : prog (res (list Z)) := rf_prog (S (Z.to_nat size)) size [].
(** HttpParser::parse_header, src/module/http/sps_http_parser.cpp:133-181; see
    [head_loop] in M_Http.v. *)
Fixpoint hl_prog (fuel : nat) (max state : Z) (buf : list Z) : prog (res (list Z)) :=
  match fuel with
  | O => PRet Fuel
  | S f =>
      if max - zlen buf <? state then PRet (Err (-1)) else
      pbind (read_fully_prog state) (fun r =>
        match r with
        | Ok d =>
            match head_next (buf ++ d) with
            | Ok None => PRet (Ok (buf ++ d))
            | Ok (Some n) => hl_prog f max n (buf ++ d)
            | Err c => PRet (Err c) | UB => PRet UB | Fuel => PRet Fuel
            end
        | Err c => PRet (Err (if 0 <? c then - c else c))
        | UB => PRet UB
        | Fuel => PRet Fuel
        end)
  end.
Definition head_prog (max : Z) : prog (res (list Z)) := hl_prog (S (Z.to_nat max)) max 4 [].
(** read_chunked_length, src/module/http/sps_http_socket.cpp:95-125; see
    [size_line] and [read_chunk_len]. *)
Fixpoint sl_prog (fuel : nat) (acc : list Z) : prog (res (list Z)) :=
  match fuel with
  | O => PRet Fuel
  | S f => PRead 1
             (fun d => if (match d with c :: _ => c =? LF | [] => false end) || (33 <=? zlen (acc ++ d))
                       then PRet (Ok (acc ++ d)) else sl_prog f (acc ++ d))
             (fun c => PRet (Err c))
  end.
Definition rcl_prog (b : hbody) : prog (res unit * hbody) :=
  pbind (sl_prog 34 []) (fun r =>
    match r with
    | Ok l => match size_of_line l with
              | Ok n => PRet (Ok tt, mkhb (hb_chunked b) (hb_cl b) (hb_eof b) (hb_nread b) n n)
              | Err c => PRet (Err c, b) | UB => PRet (UB, b) | Fuel => PRet (Fuel, b)
              end
    | Err c => PRet (Err c, b) | UB => PRet (UB, b) | Fuel => PRet (Fuel, b)
    end).
(** HttpRequestSocket::read_chunked_data, :127-155; see [chunk_tail], [rq_data]. *)
Definition ct_prog (b : hbody) (d : list Z) : prog (res (list Z) * hbody) :=
  let fin b := if hb_size b =? 0 then hb_set_eof b else b in
  if hb_left b =? 0 then
    pbind (read_fully_prog 2) (fun r =>
      match r with
      | Ok tl => PRet (if eqb_list tl crlf then (Ok d, fin b) else (Err ERROR_HTTP_CHUNKED_INVALID, b))
      | Err c => PRet (Err c, b) | UB => PRet (UB, b) | Fuel => PRet (Fuel, b)
      end)
  else PRet (Ok d, fin b).
Definition rqd_prog (b : hbody) (size : Z) : prog (res (list Z) * hbody) :=
  if hb_size b =? 0 then ct_prog b [] else
  PRead (Z.min (hb_left b) size)
    (fun d => ct_prog (hb_set_left b (u64 (hb_left b - zlen d))) d)
    (fun c => PRet (Err c, b)).
(** HttpRequestSocket::read_chunked, :77-93, and HttpRequestSocket::read, :45-71. *)
Definition rqc_prog (b : hbody) (size : Z) : prog (res (list Z) * hbody) :=
  if hb_left b =? 0 then
    pbind (rcl_prog b) (fun x =>
      match x with
      | (Ok _, b1) => rqd_prog b1 size
      | (Err c, b1) => PRet (Err c, b1) | (UB, b1) => PRet (UB, b1) | (Fuel, b1) => PRet (Fuel, b1)
      end)
  else rqd_prog b size.
Definition rq_prog (b : hbody) (size : Z) : prog (res (list Z) * hbody) :=
  if hb_eof b then PRet (Err ERROR_HTTP_RES_EOF, b) else
  if hb_chunked b then rqc_prog b size else
  let size := if 0 <=? hb_cl b then Z.min (u64 (hb_cl b - hb_nread b)) size else size in
  PRead size
    (fun d => let n := hb_nread b + zlen d in
       PRet (Ok d, mkhb (hb_chunked b) (hb_cl b) (if 0 <=? hb_cl b then u64 (hb_cl b) <=? n else hb_eof b) n (hb_size b) (hb_left b)))
    (fun c => PRet (Err c, b)).
(** A caller that reads with the buffer sizes [sizes] until the first error; see
    [hb_run]. *)
Fixpoint body_prog (b : hbody) (sizes : list Z) : prog (list (list Z) * res unit * hbody) :=
  match sizes with
  | [] => PRet ([], Ok tt, b)
  | n :: ns =>
      pbind (rq_prog b n) (fun x =>
        match x with
        | (Ok d, b1) => pbind (body_prog b1 ns) (fun y => let '(ds, e, b2) := y in PRet (d :: ds, e, b2))
        | (Err c, b1) => PRet ([], Err c, b1)
        | (UB, b1) => PRet ([], UB, b1)
        | (Fuel, b1) => PRet ([], Fuel, b1)
        end)
  end.
(** A request with a body: HttpParsePhaseHandler::handler
    (src/module/http/sps_http_phase_handler.cpp:37-58), then reads of its body
    (HttpStreamPhaseHandler::handler, sps_http_stream_phase_handler.cpp:39-48).
    [framing]: what the parser library says of the head, chunked or not and the
    content length. *)
Definition request_prog (framing : list Z -> bool * Z) (sizes : list Z) : prog (res (list Z * list (list Z) * res unit)) :=
  pbind (head_prog MAX_HEADER) (fun r =>
    match r with
    | Ok h => let '(chunked, cl) := framing h in
              pbind (body_prog (hb_new chunked cl) sizes) (fun y => let '(ds, e, _) := y in PRet (Ok (h, ds, e)))
    | Err c => PRet (Err c) | UB => PRet UB | Fuel => PRet Fuel
    end).
(** A TLS connection from its handshake on: StSSLAcceptor::handler
    (sps_sys_st_io_ssl.cpp:543-562) hands the socket over only after a successful
    accept; the connection's coroutine then reads. *)
Definition tls_serve {E A} (fuel : nat) (g : engine E) (gr : reader E) (k1 k2 : kwrite) (cert : res unit) (s : tls E) (p : prog A) : res A :=
  match ssl_accept fuel g k1 k2 cert s with
  | (Ok _, s1) => fst (run_tls fuel gr p (tl_e s1, tl_r s1, tl_io s1))
  | (Err c, _) => Err c
  | (UB, _) => UB
  | (Fuel, _) => Fuel
  end.
