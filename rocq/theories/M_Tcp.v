(** A TCP connection over time: StTcpSocket (M_Tls.v) on top of State-Threads'
    st_read, st_read_fully and st_write, whose behaviour is taken from that
    library's sources: st_read gives what is there, at most as much as was asked for;
    st_read_fully reads until it has everything or the connection ends, and
    returns -1 when a read fails, whatever it has stored by then. *)
From Verif Require Import Base M_IO M_Tls.

(** What the kernel does next, as seen by a reader: bytes are there, the peer has
    closed (for good), or the wait for bytes ends with an error. *)
Inductive tev := TvData (d : list Z) | TvEof | TvTime | TvIntr | TvOther.
(** st_read of [size] > 0 bytes. *)
Fixpoint st_read (evs : list tev) (size : Z) : option (kread * list tev) :=
  match evs with
  | [] => None                                   (* still waiting *)
  | TvData [] :: l => st_read l size
  | TvData d :: l => Some (KrData (take size d), match drop size d with [] => l | r => TvData r :: l end)
  | TvEof :: _ => Some (KrEof, evs)
  | TvTime :: l => Some (KrTime, l)
  | TvIntr :: l => Some (KrIntr, l)
  | TvOther :: l => Some (KrOther, l)
  end.
(** StTcpSocket::read, sps_sys_st_io_tcp.cpp:268-293.  [None]: the coroutine waits. *)
Definition tcp_rd (evs : list tev) (size : Z) : option (res (list Z) * list tev) :=
  if size =? 0 then Some (tcp_read 0 KrEof, evs)                  (* :269-271, st_read is not called *)
  else match st_read evs size with Some (k, l) => Some (tcp_read size k, l) | None => None end.
(** Calls of read, one after the other, until one waits. *)
Fixpoint tcp_reads (evs : list tev) (sizes : list Z) : list (res (list Z)) * list tev :=
  match sizes with
  | [] => ([], evs)
  | n :: ns =>
      match tcp_rd evs n with
      | Some (r, l) => let '(rs, l2) := tcp_reads l ns in (r :: rs, l2)
      | None => ([], evs)
      end
  end.
(** st_read_fully: [acc] is what it has stored. *)
Fixpoint st_read_fully (evs : list tev) (size : Z) (acc : list Z) : option (kread * list tev) :=
  if size <=? zlen acc then Some (KrData acc, evs) else
  match evs with
  | [] => None
  | TvData d :: l =>
      let n := size - zlen acc in
      if n <? zlen d then Some (KrData (acc ++ take n d), TvData (drop n d) :: l)
      else st_read_fully l size (acc ++ d)
  | TvEof :: _ => Some (match acc with [] => KrEof | _ => KrData acc end, evs)
  | TvTime :: l => Some (KrTime, l)
  | TvIntr :: l => Some (KrIntr, l)
  | TvOther :: l => Some (KrOther, l)
  end.
(** StTcpSocket::read_fully, :243-266. *)
Definition tcp_full (evs : list tev) (size : Z) : option (res (list Z) * list tev) :=
  match st_read_fully evs size [] with Some (k, l) => Some (tcp_read_fully size k, l) | None => None end.

(** A writer's view: a write is taken whole, or the connection takes [n] bytes and
    then no more in time, or fails. *)
Inductive twev := TwAll | TwTime (n : Z) | TwFail (n : Z).
(** StTcpSocket::write, :303-318, on what the peer has been sent so far. *)
Definition tcp_wr (e : twev) (sent data : list Z) : res unit * list Z :=
  match data with
  | [] => (tcp_write [] KwAll, sent)
  | _ =>
      match e with
      | TwAll => (tcp_write data KwAll, sent ++ data)
      | TwTime n => (tcp_write data KwTime, sent ++ take n data)
      | TwFail n => (tcp_write data KwOther, sent ++ take n data)
      end
  end.
Fixpoint tcp_writes (es : list twev) (sent : list Z) (datas : list (list Z)) : list (res unit) * list Z :=
  match datas, es with
  | d :: ds, e :: es' => let '(r, s1) := tcp_wr e sent d in let '(rs, s2) := tcp_writes es' s1 ds in (r :: rs, s2)
  | _, _ => ([], sent)
  end.
