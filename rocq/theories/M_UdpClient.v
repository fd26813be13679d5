(** UDP client sockets, StUdpClientSocket in
    src/sys/st/io/sps_sys_st_io_udp.cpp:101-268, and the load generator
    tools/udp_client.cpp.

    The kernel and the coroutine library are outside: what st_recvfrom and
    st_sendto give is a list of events.  Sizes are below 2^31 (the loops count
    in [int]). *)
From Verif Require Import Base M_Opt.

(** ** Reading *)
(** What one st_recvfrom finds: a datagram, with the value left in errno by
    earlier calls, or a failure with its errno. *)
Inductive urecv := RDgram (d : list Z) (old : Z) | RFail (eno : Z).
Definition E_INTR : Z := 4.
Definition E_TIME : Z := 62.
(** read, :154-183: the kernel cuts a datagram to the room there is.  When
    nothing was stored errno is looked at all the same (:174). *)
Definition uc_read (size : Z) (e : urecv) : res (list Z) :=
  match e with
  | RDgram d old =>
      let got := take size d in
      if zlen got <=? 0 then Err (if old =? E_INTR then ERROR_SOCKET_EINTR else ERROR_SOCKET_READ) else Ok got
  | RFail eno =>
      Err (if eno =? E_TIME then ERROR_SOCKET_TIMEOUT else if eno =? E_INTR then ERROR_SOCKET_EINTR else ERROR_SOCKET_READ)
  end.
(** read_fully, :138-152; [Fuel]: it still waits when the events are over.  The
    count behind [nread] is not set. *)
Fixpoint uc_read_fully (size : Z) (got : list Z) (ev : list urecv) : res (list Z) * list urecv :=
  if size <=? zlen got then (Ok got, ev) else
  match ev with
  | [] => (Fuel, [])
  | e :: l =>
      match uc_read (size - zlen got) e with
      | Ok d => uc_read_fully size (got ++ d) l
      | r => (r, l)
      end
  end.

(** ** Writing *)
(** What one st_sendto gives: the number of bytes sent, or a failure. *)
Inductive usend := SSent (n : Z) | SFail (eno : Z).
(** write, :246-268: the result, the datagrams sent and the events left. *)
Fixpoint uc_write (data : list Z) (rs : list usend) : res unit * list (list Z) * list usend :=
  match data, rs with
  | [], _ => (Ok tt, [], rs)
  | _, [] => (Fuel, [], [])
  | _, SFail eno :: l =>
      (Err (if eno =? E_TIME then ERROR_SOCKET_TIMEOUT else if eno =? E_INTR then ERROR_SOCKET_EINTR else ERROR_SOCKET_WRITE), [], l)
  | _, SSent n :: l => let '(r, ds, l1) := uc_write (drop n data) l in (r, take n data :: ds, l1)
  end.
(** Where they go: the constructor, :101-118, keeps the address it is given for
    nothing but asking; connect (:129-136) uses the same peer_addr. *)
Definition uc_dest (peer_ip : list Z) (peer_port : Z) : list Z * Z := ([0; 0; 0; 0], u16 peer_port).

Definition uc_send (peer_ip : list Z) (peer_port : Z) (data : list Z) (rs : list usend) : res unit * list (list Z * Z * list Z) :=
  let '(r, ds, _) := uc_write data rs in (r, map (fun d => (uc_dest peer_ip peer_port, d)) ds).

(** ** The load generator *)
(** What can be seen of it. *)
Inductive uev := VSend (d : list Z) | VPause (us : Z) | VReport (wrote ms seq kbps : Z).
(** UdpPacket, tools/udp_client.cpp:9-16, as lines 56-57 fill it; [rest]: the
    bytes behind the head, never written. *)
Definition tool_packet (seq now : Z) (rest : list Z) : list Z := le 8 seq ++ le 8 now ++ rest.
(** The loop, :55-77.  One round has the clock in milliseconds (:57) and
    whether the send succeeded; a datagram is sent whole or not at all.  [inter] is
    inter_us: the computation in double, :30, is left out.  [seq] is an int
    (:41) and so is the number of datagrams since the last report.  The times
    are unsigned 64-bit numbers (src/util/sps_util_typedef.hpp:39). *)
Fixpoint tool_loop (inter gso : Z) (rest : list Z) (seq pre wrote so : Z) (ticks : list (Z * bool)) : list uev * res unit :=
  match ticks with
  | [] => ([], Fuel)
  | (now, false) :: _ => ([], Ok tt)
  | (now, true) :: l =>
      let d := tool_packet seq now rest in
      if seq =? 2 ^ 31 - 1 then ([VSend d], UB) else
      let seq1 := seq + 1 in let wrote1 := wrote + 1 in let so1 := so + 1 in
      let pause := (0 <? inter) && (gso <=? so1) in
      if pause && (2 ^ 63 <=? inter * gso) then ([VSend d], UB) else
      let ms := u64 (now - pre) in
      let report := 1000 <=? ms in
      let '(evs, r) := tool_loop inter gso rest seq1 (if report then now else pre) (if report then 0 else wrote1) (if pause then 0 else so1) l in
      (VSend d :: (if pause then [VPause (inter * gso)] else [])
        ++ (if report then [VReport wrote1 ms seq1 (1400 * 8 * wrote1 / ms)] else []) ++ evs, r)
  end.
(** main, :18-80, after the arguments: [gso] is at least 1 (:31).  A null
    descriptor (create_fd failed, :37) is used by the constructor. *)
Definition tool_main (fd_ok connect connected : bool) (inter gso_arg : Z) (rest : list Z) (t0 : Z) (ticks : list (Z * bool)) : list uev * res Z :=
  if negb fd_ok then ([], UB)
  else if connect && negb connected then ([], Ok (-1))
  else let '(evs, r) := tool_loop inter (Z.max 1 gso_arg) rest 0 t0 0 0 ticks in
       (evs, match r with Ok _ => Ok 0 | Err c => Err c | UB => UB | Fuel => Fuel end).
