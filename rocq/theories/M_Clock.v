(** Connections with a clock: how long a read or a write on a TCP connection
    may take.  Times are microseconds; computing takes no time.  State-Threads'
    st_read and st_write are taken from that library's sources: what is there is
    taken at once; otherwise the coroutine waits for the peer, each time at most
    as long as the limit, and st_write waits anew after every part it could
    write. *)
From Verif Require Import Base M_IO M_Text M_Conf M_Https.

(** ** The limits. *)
(** atoll, as [atoi] in M_Text.v but without the cut to 32 bits. *)
Definition atoll (l : list Z) : Z :=
  let '(neg, l1) := sign_of (skip_space l) in
  let v := numrun decval 10 l1 0 in
  if neg then Z.max (- 2 ^ 63) (- v) else Z.min (2 ^ 63 - 1) v.
(** The option as it is stored: ConfigOption::opt_set,
    src/module/sps_module_opt.cpp:49-56, into a utime_t
    (src/module/server/sps_server_module.hpp:43-44, :56-57;
    src/util/sps_util_typedef.hpp:39). *)
Definition conf_limit (m : cmod) (k : list Z) : Z :=
  u64 (match opt_text m k with [] => 0 | v => atoll v end).
(** The limit of a connection: ServerModule::install passes both on
    (src/module/server/sps_server_module.cpp:148-149), Server::accept sets them
    (src/module/server/sps_server.cpp:92-93), StTcpSocket keeps them
    (src/sys/st/io/sps_sys_st_io_tcp.cpp:235-237, :295-297).  All bits set is
    ST_UTIME_NO_TIMEOUT.  That the library adds the limit to its clock without
    looking for an overflow is left out. *)
Definition limit_of (v : Z) : option Z := if v =? 2 ^ 64 - 1 then None else Some v.

(** ** Reading. *)
(** What the peer does, and when it arrives; the end of the connection carries
    the code StTcpSocket::read returns for it. *)
Inductive pev := PBytes (d : list Z) | PEnd (c : Z).
Definition arr := (Z * pev)%type.
(** Does something that happens at [t] end a wait that begins at [now]?  What
    happens exactly at the limit may or may not ([tie]). *)
Definition in_time (tie : bool) (lim : option Z) (now t : Z) : bool :=
  (t <=? now) || match lim with None => true | Some T => (t - now <? T) || (tie && (t - now =? T)) end.
(** What has arrived by [now], at most [n] bytes. *)
Fixpoint gather (now n : Z) (evs : list arr) : list Z * list arr :=
  match evs with
  | (t, PBytes d) :: r =>
      if t <=? now then
        if zlen d <=? n then let '(x, r1) := gather now (n - zlen d) r in (d ++ x, r1)
        else (take n d, (t, PBytes (drop n d)) :: r)
      else ([], evs)
  | _ => ([], evs)
  end.
(** StTcpSocket::read, src/sys/st/io/sps_sys_st_io_tcp.cpp:268-293: the result, the
    time it returns and what is still to come; [None] if it never returns. *)
Definition tk_read (tie : bool) (lim : option Z) (now : Z) (evs : list arr) (n : Z) : option (res (list Z) * Z * list arr) :=
  if n <=? 0 then Some (Err ERROR_IO_BUFFER_FULL, now, evs) else           (* :269-271 *)
  let late := match lim with None => None | Some T => Some (Err ERROR_SOCKET_TIMEOUT, now + T, evs) end in  (* :275-277 *)
  match evs with
  | [] => late
  | (t, e) :: _ =>
      if in_time tie lim now t then
        let now1 := Z.max now t in
        match e with
        | PBytes _ => let '(d, r) := gather now1 n evs in Some (Ok d, now1, r)
        | PEnd c => Some (Err c, now1, evs)                                 (* :279-287 *)
        end
      else late
  end.
(** A program of reads (M_Https.v [prog]) on such a connection. *)
Fixpoint run_clock {A} (tie : bool) (lim : option Z) (p : prog A) (now : Z) (evs : list arr) : option (A * Z * list arr) :=
  match p with
  | PRet a => Some (a, now, evs)
  | PRead n k ke =>
      match tk_read tie lim now evs n with
      | Some (Ok d, t, r) => run_clock tie lim (k d) t r
      | Some (Err c, t, r) => run_clock tie lim (ke c) t r
      | _ => None
      end
  end.

(** ** Writing. *)
(** [room]: bytes the connection takes at once; [evs]: when it can take how
    many more.  StTcpSocket::write, sps_sys_st_io_tcp.cpp:303-318: the result,
    what has been sent, the time, the room left and what is still to come. *)
Fixpoint tk_write (tie : bool) (lim : option Z) (now room : Z) (evs : list (Z * Z)) (data : list Z)
  : option (res unit * list Z * Z * Z * list (Z * Z)) :=
  if zlen data <=? room then Some (Ok tt, data, now, room - zlen data, evs) else
  let late := match lim with
              | None => None
              | Some T => Some (Err ERROR_SOCKET_TIMEOUT, take room data, now + T, 0, evs)   (* :309-311 *)
              end in
  match evs with
  | [] => late
  | (t, n) :: r =>
      if in_time tie lim now t then
        match tk_write tie lim (Z.max now t) n r (drop room data) with
        | Some (x, sent, t1, room1, r1) => Some (x, take room data ++ sent, t1, room1, r1)
        | None => None
        end
      else late
  end.
Definition tcp_put (tie : bool) (lim : option Z) (now room : Z) (evs : list (Z * Z)) (data : list Z) :=
  match data with
  | [] => Some (Err ERROR_SOCKET_WRITE, [], now, room, evs)                (* :308-312, st_write of nothing returns 0 *)
  | _ => tk_write tie lim now room evs data
  end.
(** Writes one after the other, up to the first that fails, as a player sends
    its packets (src/module/stream/sps_stream.cpp:78-100). *)
Fixpoint tcp_puts (tie : bool) (lim : option Z) (now room : Z) (evs : list (Z * Z)) (datas : list (list Z))
  : option (res unit * list Z * Z) :=
  match datas with
  | [] => Some (Ok tt, [], now)
  | d :: ds =>
      match tcp_put tie lim now room evs d with
      | Some (Ok _, sent, t1, room1, r1) =>
          match tcp_puts tie lim t1 room1 r1 ds with
          | Some (x, more, t2) => Some (x, sent ++ more, t2)
          | None => None
          end
      | Some (e, sent, t1, _, _) => Some (e, sent, t1)
      | None => None
      end
  end.
