(** The receiving end of the load generator, tools/udp_blackhole_server.cpp,
    on the sessions of a UDP server socket (M_Udp.v).

    One session is followed at a time; the tool reads a datagram at the moment
    it arrives, so its queue is never full.  Clock values are the milliseconds
    of update_time (src/util/sps_util_time.cpp:39-47, :49-51) and the waiting is measured
    with the same clock. *)
From Verif Require Import Base M_Udp.

(** The limit of a read, tools/udp_blackhole_server.cpp:27, in milliseconds;
    StUdpSessionClientSocket::read waits as long
    (src/sys/st/io/sps_sys_st_io_udp.cpp:302-308). *)
Definition bh_wait : Z := 10000.
(** A read of the tool, :32, with the buffer of :21, of a datagram that the
    server has received into its own buffer of 4096 bytes
    (src/sys/st/io/sps_sys_st_io_udp.cpp:410, :417; .hpp:189): the number of
    bytes it counts. *)
Definition bh_read (d : list Z) : res Z :=
  match uq_read (uq_push uq_new (take 4096 d)) 4096 with
  | (Ok x, _) => Ok (zlen x)
  | (Err c, _) => Err c
  | (UB, _) => UB
  | (Fuel, _) => Fuel
  end.
(** The inner loop, :32-40: [last] is the time of the read before, [pre] and
    [len] are the tool's.  The reports, the arrivals left when the read fails,
    and how it ended; [len * 8] is a signed product of 64 bits. *)
Fixpoint bh_session (last pre len : Z) (arr : list (Z * list Z)) : list Z * list (Z * list Z) * res unit :=
  match arr with
  | [] => ([], [], Ok tt)
  | (now, d) :: l =>
      if bh_wait <=? now - last then ([], arr, Ok tt) else
      match bh_read d with
      | Ok nr =>
          let len1 := len + nr in
          if 1000 <=? now - pre then
            if 2 ^ 63 <=? len1 * 8 then ([], l, UB) else
            let '(rs, rest, r) := bh_session now now 0 l in (len1 * 8 / (now - pre) :: rs, rest, r)
          else bh_session now pre len1 l
      | Err c => ([], arr, Ok tt)
      | UB => ([], arr, UB)
      | Fuel => ([], arr, Fuel)
      end
  end.
(** The outer loop, :23-41: accept returns when the first datagram of a session
    is there, and the session before is let go.  The reports of each session;
    [None]: undefined. *)
Fixpoint bh_main (fuel : nat) (arr : list (Z * list Z)) : option (list (list Z)) :=
  match fuel, arr with
  | O, _ => None
  | S f, [] => Some []
  | S f, (t, _) :: _ =>
      match bh_session t t 0 arr with
      | (rs, rest, Ok _) => match bh_main f rest with Some l => Some (rs :: l) | None => None end
      | _ => None
      end
  end.
