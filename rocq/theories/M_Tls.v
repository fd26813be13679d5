(** TCP and TLS sockets (src/sys/st/io/sps_sys_st_io_tcp.cpp and
    sps_sys_st_io_ssl.cpp) and the server's accept loop
    (src/module/server/sps_server.cpp).

    The kernel, State-Threads and OpenSSL are outside: their answers are
    inputs. *)
From Verif Require Import Base M_IO.

(** ** TCP *)
(** What st_read returns. *)
Inductive kread := KrData (d : list Z) | KrEof | KrTime | KrIntr | KrOther.
(** StTcpSocket::read, sps_sys_st_io_tcp.cpp:268-293; st_read is not called
    for size 0. *)
Definition tcp_read (size : Z) (k : kread) : res (list Z) :=
  if size =? 0 then Err ERROR_IO_BUFFER_FULL else
  match k with
  | KrData d => Ok d
  | KrTime => Err ERROR_SOCKET_TIMEOUT
  | KrEof => Err ERROR_SOCKET_CLOSED
  | KrIntr => Err ERROR_SOCKET_EINTR
  | KrOther => Err ERROR_SOCKET_READ
  end.
(** StTcpSocket::read_fully, :243-266: st_read_fully returned [d] (shorter than
    [size] at the end of the connection) or failed. *)
Definition tcp_read_fully (size : Z) (k : kread) : res (list Z) :=
  match k with
  | KrData d => if zlen d =? size then Ok d else Err ERROR_SOCKET_READ_FULLY
  | KrEof => if 0 =? size then Ok [] else Err ERROR_SOCKET_READ_FULLY
  | KrTime => Err ERROR_SOCKET_TIMEOUT
  | KrIntr | KrOther => Err ERROR_SOCKET_READ_FULLY
  end.
(** What st_write returns; it writes everything or fails, and returns 0 at once
    for nothing to write. *)
Inductive kwrite := KwAll | KwTime | KwOther.
(** StTcpSocket::write, :303-318. *)
Definition tcp_write (data : list Z) (k : kwrite) : res unit :=
  match data with
  | [] => Err ERROR_SOCKET_WRITE
  | _ => match k with KwAll => Ok tt | KwTime => Err ERROR_SOCKET_TIMEOUT | KwOther => Err ERROR_SOCKET_WRITE end
  end.
(** StTcpServerSocket::accept, :350-382: st_accept may return null (out of
    descriptors, aborted connection), which st_netfd_fileno then reads; a
    failing getsockname gives a null socket. *)
Inductive kacc := KaNull | KaNoName | KaSock (id : nat).
Definition tcp_accept (k : kacc) : res (option nat) :=
  match k with KaNull => UB | KaNoName => Ok None | KaSock i => Ok (Some i) end.
(** Server::accept, sps_server.cpp:82-109, with ServerBase::create
    (sps_server_handler.cpp:73-75), which never returns null: the connections
    handed to a coroutine, and how the loop ends.  [Fuel]: still running. *)
Fixpoint accept_loop {A} (accs : list (res (option A))) : list A * res unit :=
  match accs with
  | [] => ([], Fuel)
  | Ok (Some c) :: l => let '(cs, r) := accept_loop l in (c :: cs, r)
  | Ok None :: _ => ([], UB)      (* io->set_recv_timeout on the null socket *)
  | Err c :: _ => ([], Err c)
  | UB :: _ => ([], UB)
  | Fuel :: _ => ([], Fuel)
  end.

(** ** TLS *)
(** SSL_do_handshake with what it takes from the input buffer and adds to the
    output buffer. *)
Inductive hsres := HsDone | HsWant | HsFail.
Record engine (E : Type) := mkeng { hs_step : E -> list Z -> hsres * E * list Z * list Z }.
Arguments mkeng {E}. Arguments hs_step {E}.
(** A TLS socket: engine, rbio, wbio, connection, bytes sent, [inited]. *)
Record tls (E : Type) := mktls { tl_e : E; tl_r : list Z; tl_w : list Z; tl_io : transport; tl_sent : list Z; tl_init : bool }.
Arguments mktls {E}. Arguments tl_e {E}. Arguments tl_r {E}. Arguments tl_w {E}. Arguments tl_io {E}. Arguments tl_sent {E}. Arguments tl_init {E}.
(** do_handshake, sps_sys_st_io_ssl.cpp:346-362. *)
Definition do_handshake {E} (g : engine E) (s : tls E) : res unit * tls E :=
  let '(r, e, rest, out) := hs_step g (tl_e s) (tl_r s) in
  (match r with HsDone => Ok tt | HsWant => Err ERROR_SSL_HANDSHAKE_CONTINUE | HsFail => Err ERROR_SSL_HANDSHAKE end,
   mktls e rest (tl_w s ++ out) (tl_io s) (tl_sent s) (tl_init s)).
Definition is_continue (r : res unit) : bool := match r with Err c => c =? ERROR_SSL_HANDSHAKE_CONTINUE | _ => false end.
(** The loop of handshake_util_write, :267-297.  BIO_write and BIO_reset on a
    memory buffer do not fail. *)
Fixpoint util_write_loop {E} (fuel : nat) (g : engine E) (s : tls E) : res unit * tls E :=
  match fuel with
  | O => (Fuel, s)
  | S f =>
      match t_read (tl_io s) 1024 with
      | (Ok d, io1) =>
          let s1 := mktls (tl_e s) (tl_r s ++ d) (tl_w s) io1 (tl_sent s) (tl_init s) in
          let '(r, s2) := do_handshake g s1 in
          if is_continue r then
            match tl_w s2 with
            | [] => util_write_loop f g s2
            | _ => (r, mktls (tl_e s2) [] (tl_w s2) (tl_io s2) (tl_sent s2) (tl_init s2))
            end
          else (r, s2)
      | (Err c, io1) => (Err c, mktls (tl_e s) (tl_r s) (tl_w s) io1 (tl_sent s) (tl_init s))
      | (UB, _) => (UB, s)
      | (Fuel, _) => (Fuel, s)
      end
  end.
(** handshake_util_write, :249-298. *)
Definition util_write {E} (fuel : nat) (g : engine E) (s : tls E) : res unit * tls E :=
  let '(r, s1) := do_handshake g s in
  if is_continue r then util_write_loop fuel g s1 else (r, s1).
(** handshake_util_read, :300-344: rbio is emptied before the write, wbio only
    after a successful one. *)
Definition util_read {E} (g : engine E) (k : kwrite) (s : tls E) : res unit * tls E :=
  let '(r, s1) := do_handshake g s in
  if (match r with Ok _ => true | _ => is_continue r end) then
    match tl_w s1 with
    | [] => (Err ERROR_SSL_HANDSHAKE, s1)
    | w =>
        match tcp_write w k with
        | Ok _ => (r, mktls (tl_e s1) [] [] (tl_io s1) (tl_sent s1 ++ w) (tl_init s1))
        | e => (e, mktls (tl_e s1) [] w (tl_io s1) (tl_sent s1) (tl_init s1))
        end
    end
  else (r, s1).
(** A step of accept goes on after success and after "continue". *)
Definition goes_on (r : res unit) : bool := match r with Ok _ => true | _ => is_continue r end.
(** accept, :196-247; [cert] is the result of do_ssl_verify, or SUCCESS when a
    certificate search is installed (the search then runs inside the engine,
    ssl_servername_callback :48-72); [k1], [k2] the two writes. *)
Definition ssl_accept {E} (fuel : nat) (g : engine E) (k1 k2 : kwrite) (cert : res unit) (s : tls E) : res unit * tls E :=
  match cert with
  | Ok _ =>
      let '(r1, s1) := util_write fuel g s in if negb (goes_on r1) then (r1, s1) else
      let '(r2, s2) := util_read g k1 s1 in if negb (goes_on r2) then (r2, s2) else
      let '(r3, s3) := util_write fuel g s2 in if negb (goes_on r3) then (r3, s3) else
      util_read g k2 s3
  | Err c => (Err c, s)
  | UB => (UB, s)
  | Fuel => (Fuel, s)
  end.
(** init, :106-123, as a server (the client side, handshake :130-194, is not
    modelled). *)
Definition ssl_init {E} (fuel : nat) (g : engine E) (k1 k2 : kwrite) (cert : res unit) (s : tls E) : res unit * tls E :=
  if tl_init s then (Ok tt, s) else ssl_accept fuel g k1 k2 cert (mktls (tl_e s) (tl_r s) (tl_w s) (tl_io s) (tl_sent s) true).

(** StSSLAcceptor::handler, :543-562, one coroutine: connections in the order
    they come, each with how its handshake ends. *)
Inductive hend := HeOk | HeFail | HeBlocks.
Fixpoint tls_acceptor (conns : list (nat * hend)) : list nat :=
  match conns with
  | [] => []
  | (i, HeOk) :: l => i :: tls_acceptor l
  | (_, HeFail) :: l => tls_acceptor l
  | (_, HeBlocks) :: _ => []
  end.

(** write, :463-502.  [rounds]: SSL_write took [n] bytes of what it was given
    (or failed) and put [enc] into wbio; then the connection took it or failed. *)
Inductive twr := TwTook (n : Z) (enc : list Z) (k : kwrite) | TwFail.
Fixpoint ssl_write (rounds : list twr) (data wbio : list Z) : (list (list Z) * list Z) * res unit * list Z :=
  match data with
  | [] => ([], [], Err ERROR_SSL_WRITE, wbio)
  | _ =>
      match rounds with
      | [] => ([], [], Fuel, wbio)
      | TwFail :: _ => ([], [], Err ERROR_SSL_WRITE, wbio)
      | TwTook n enc k :: l =>
          let w := wbio ++ enc in
          match tcp_write w k with
          | Ok _ =>
              if zlen data <=? n then ([take n data], w, Ok tt, [])
              else let '((ps, wire), r, w1) := ssl_write l (drop n data) [] in ((take n data :: ps), w ++ wire, r, w1)
          | Err c => ([take n data], [], Err c, w)
          | UB => ([take n data], [], UB, w)
          | Fuel => ([take n data], [], Fuel, w)
          end
      end
  end.

(** SSL_read: plaintext, "want read", or failure, with what it leaves in rbio. *)
Inductive rdres := RdData (d : list Z) | RdWant | RdFail.
Record reader (E : Type) := mkrdr { rd_step : E -> list Z -> Z -> rdres * E * list Z }.
Arguments mkrdr {E}. Arguments rd_step {E}.
(** read, :416-453: ciphertext is read into the caller's buffer, so at most
    [size] bytes at a time.  BIO_write of at least one byte does not fail. *)
Fixpoint ssl_read {E} (fuel : nat) (g : reader E) (e : E) (rbio : list Z) (io : transport) (size : Z)
  : res (list Z) * (E * list Z * transport) :=
  match fuel with
  | O => (Fuel, (e, rbio, io))
  | S f =>
      let '(r, e1, rb1) := rd_step g e rbio size in
      match r with
      | RdData d => (Ok d, (e1, rb1, io))
      | RdWant =>
          match t_read io size with
          | (Ok d, io1) => ssl_read f g e1 (rb1 ++ d) io1 size
          | (Err c, io1) => (Err c, (e1, rb1, io1))
          | (UB, io1) => (UB, (e1, rb1, io1))
          | (Fuel, io1) => (Fuel, (e1, rb1, io1))
          end
      | RdFail => (Err ERROR_SSL_READ, (e1, rb1, io))
      end
  end.
(** A sequence of reads. *)
Fixpoint ssl_reads {E} (fuel : nat) (g : reader E) (st : E * list Z * transport) (sizes : list Z)
  : list (res (list Z)) * (E * list Z * transport) :=
  match sizes with
  | [] => ([], st)
  | n :: l =>
      let '(e, rb, io) := st in
      let '(r, st1) := ssl_read fuel g e rb io n in
      let '(rs, st2) := ssl_reads fuel g st1 l in (r :: rs, st2)
  end.
