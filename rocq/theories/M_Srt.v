(** SRT sockets, src/sys/st/io/sps_sys_st_io_srt.cpp.

    The SRT library is outside: what each of its calls returns is given by a
    list of outcomes.  Its contract, from its documentation: a live socket
    receives whole messages, refuses a buffer of fewer than 1316 bytes and cuts
    a longer message to the buffer; a send takes the whole message. *)
From Verif Require Import Base M_IO.

(** SRT_LIVE_DEF_PLSIZE of the library. *)
Definition SRT_PLSIZE : Z := 1316.
(** SRT_ERROR and SRT_INVALID_SOCK of the library. *)
Definition SRT_ERROR : Z := -1.

(** ** Receiving *)
Inductive srcv :=
| SvMsg (d : list Z)     (* a message is there *)
| SvAgain (e : Z)        (* nothing there; what waiting for input returns *)
| SvFail                 (* any other library error *)
| SvClosed.              (* srt_recv returns 0 *)
(** st_srt_read, :353-383. *)
Fixpoint st_srt_read (evs : list srcv) (nbyte : Z) : res (list Z) * list srcv :=
  match evs with
  | [] => (Fuel, [])
  | SvMsg d :: l => if nbyte <? SRT_PLSIZE then (Err SRT_ERROR, l) else (Ok (take nbyte d), l)
  | SvAgain e :: l => if e =? 0 then st_srt_read l nbyte else (Err e, l)
  | SvFail :: l => (Err SRT_ERROR, l)
  | SvClosed :: l => (Err ERROR_SRT_SOCKET_CLOSED, l)
  end.
(** StSrtSocket, :666-672: the read buffer, 1316 bytes, not rewindable.  The
    allocation is not initialised. *)
Record srts := mksrt { sr_buf : avbuf; sr_evs : list srcv }.
Definition srt_open (raw : list Z) (evs : list srcv) : srts := mksrt (mkab raw 0 0 false) evs.
(** The first part of read, :708-718: buffered bytes.  memcpy from pos(). *)
Definition srt_serve (s : srts) (size : Z) : res (list Z) * srts :=
  let b := sr_buf s in
  let n := Z.min size (ab_size b) in
  match slice (ab_data b) (ab_ptr b) n with
  | Some d =>
      let b1 := ab_skip b n in
      (Ok d, mksrt (if ab_size b1 =? 0 then ab_clear b1 else b1) (sr_evs s))
  | None => (UB, s)
  end.
(** read, :707-741; the call of itself at :732 finds the buffer filled. *)
Definition srt_read (s : srts) (size : Z) : res (list Z) * srts :=
  if 0 <? ab_size (sr_buf s) then srt_serve s size else
  if size <? SRT_PLSIZE then
    match st_srt_read (sr_evs s) (ab_cap_size (sr_buf s)) with
    | (Ok d, l) =>
        match ab_store (sr_buf s) 0 d with
        | Ok b => srt_serve (mksrt (mkab (ab_data b) (ab_ptr b) (ab_end b + zlen d) (ab_rw b)) l) size
        | _ => (UB, mksrt (sr_buf s) l)
        end
    | (r, l) => (r, mksrt (sr_buf s) l)
    end
  else let '(r, l) := st_srt_read (sr_evs s) size in (r, mksrt (sr_buf s) l).
(** A sequence of reads. *)
Fixpoint srt_reads (s : srts) (sizes : list Z) : list (res (list Z)) * srts :=
  match sizes with
  | [] => ([], s)
  | n :: l => let '(r, s1) := srt_read s n in let '(rs, s2) := srt_reads s1 l in (r :: rs, s2)
  end.

(** ** Full reads that do not advance: StSrtSocket::read_fully, :687-705, and
    StSSLSocket::read_fully (sps_sys_st_io_ssl.cpp:396-414).  Every read stores
    at the start of the buffer.  [pieces] are the results of the reads, each at
    most as long as was asked for; [mem] is the caller's buffer. *)
Definition overlay (d mem : list Z) : list Z := d ++ drop (zlen d) mem.
Fixpoint read_fully_same (pieces : list (res (list Z))) (size n : Z) (mem : list Z) : res Z * list Z :=
  if size <=? n then (Ok n, mem) else
  match pieces with
  | [] => (Fuel, mem)
  | Ok d :: l => read_fully_same l size (n + zlen d) (overlay d mem)
  | Err c :: _ => (Err c, mem)
  | UB :: _ => (UB, mem)
  | Fuel :: _ => (Fuel, mem)
  end.

(** ** Sending *)
Inductive ssnd :=
| SsOk             (* the message is taken *)
| SsAgain (e : Z)  (* no room; what waiting for output returns *)
| SsFail.          (* any other library error *)
(** The inner loop of st_srt_write, :399-415: one message. *)
Fixpoint srt_sendmsg (evs : list ssnd) : res unit * list ssnd :=
  match evs with
  | [] => (Fuel, [])
  | SsOk :: l => (Ok tt, l)
  | SsAgain e :: l => if e =? 0 then srt_sendmsg l else (Err e, l)
  | SsFail :: l => (Err SRT_ERROR, l)
  end.
(** st_srt_write, :385-420, and StSrtSocket::write, :751-753: the messages sent
    and the result.  One round per message, at most one per byte. *)
Fixpoint st_srt_write (fuel : nat) (evs : list ssnd) (data : list Z) : list (list Z) * res unit :=
  match fuel with
  | O => ([], Fuel)
  | S f =>
      match data with
      | [] => ([], Ok tt)
      | _ =>
          let next := if SRT_PLSIZE <? zlen data then SRT_PLSIZE else zlen data in
          match srt_sendmsg evs with
          | (Ok _, l) => let '(ms, r) := st_srt_write f l (drop next data) in (take next data :: ms, r)
          | (Err c, _) => ([], Err c)
          | (UB, _) => ([], UB)
          | (Fuel, _) => ([], Fuel)
          end
      end
  end.
Definition srt_write (evs : list ssnd) (data : list Z) : list (list Z) * res unit :=
  st_srt_write (S (length data)) evs data.

(** ** Accepting *)
Inductive sacc := SaSock (fd : Z) | SaAgain (e : Z) | SaFail.
(** st_srt_accept, :330-351: the socket number, or whatever is in [ret]. *)
Fixpoint st_srt_accept (evs : list sacc) : res Z :=
  match evs with
  | [] => Fuel
  | SaSock fd :: _ => Ok fd
  | SaAgain e :: l => if e =? 0 then st_srt_accept l else Ok e
  | SaFail :: _ => Ok SRT_ERROR
  end.
(** StSrtServerSocket::accept, :782-797: always a socket object.  Its
    destructor closes the number (:674-677, :422-430). *)
Definition srt_accept (evs : list sacc) : res (option Z) :=
  match st_srt_accept evs with
  | Ok fd => Ok (Some fd)
  | Err c => Err c | UB => UB | Fuel => Fuel
  end.

(** ** The dispatcher, SrtStDispatch :492-664 *)
(** Event bits of the library, and StSrtEvent (sps_sys_st_io_srt.hpp:48-54). *)
Definition EV_IN : Z := 1.
Definition EV_OUT : Z := 4.
Definition EV_ERR : Z := 8.
Definition EV_ETONLY : Z := 16.
(** st_srt_socket_error, :52-65: by the state of the socket. *)
Inductive sstat := StBroken | StClosing | StClosed | StNonexist | StOther.
Definition srt_socket_error (s : sstat) : Z :=
  match s with
  | StBroken => ERROR_SRT_SOCKET_BROKEN
  | StClosing => ERROR_SRT_SOCKET_CLOSING
  | StClosed => ERROR_SRT_SOCKET_CLOSED
  | StNonexist => ERROR_SRT_SOCKET_NOTEXITS
  | StOther => ERROR_SRT_SOCKET_STATUS_OK
  end.
(** A wait: blocked, woken with an error code (0: none), or returned. *)
Inductive wstate := WBlocked (fd ev : Z) | WWoken (fd ev err : Z) | WReturned (ret : Z).
Record disp := mkdp {
  dp_conds : list (Z * list (nat * Z));   (* conditions: waiters and their events by socket *)
  dp_reg : list (Z * Z);                  (* what the library is told to watch *)
  dp_wait : list (nat * wstate)           (* the coroutines in st_srt_epoll *)
}.
Definition dp_start : disp := mkdp [] [] [].
Fixpoint zget {A} (m : list (Z * A)) (k : Z) : option A :=
  match m with [] => None | (k', v) :: l => if k' =? k then Some v else zget l k end.
Definition zdel {A} (m : list (Z * A)) (k : Z) : list (Z * A) := filter (fun e => negb (fst e =? k)) m.
Definition zput {A} (m : list (Z * A)) (k : Z) (v : A) : list (Z * A) := (k, v) :: zdel m k.
Fixpoint wget (m : list (nat * wstate)) (w : nat) : option wstate :=
  match m with [] => None | (k, v) :: l => if Nat.eqb k w then Some v else wget l w end.
Definition wput (m : list (nat * wstate)) (w : nat) (v : wstate) : list (nat * wstate) :=
  (w, v) :: filter (fun e => negb (Nat.eqb (fst e) w)) m.
(** get_exits_evt, :593-605. *)
Definition exist_evt (d : disp) (fd : Z) : Z :=
  match zget (dp_conds d) fd with
  | None => 0
  | Some l => fold_right (fun e a => Z.lor (snd e) a) 0 l
  end.
(** st_srt_epoll up to the wait, :526-556; the library's calls succeed.  [w]
    names the wait. *)
Definition d_wait (d : disp) (w : nat) (fd ev : Z) : disp :=
  let add := match zget (dp_conds d) fd with None => true | Some _ => false end in
  let mask := if add then Z.lor ev EV_ERR else Z.lor (Z.lor (Z.lor (exist_evt d fd) ev) EV_ERR) EV_ETONLY in
  let l := match zget (dp_conds d) fd with None => [] | Some l => l end in
  mkdp (zput (dp_conds d) fd ((w, ev) :: l)) (zput (dp_reg d) fd mask) (wput (dp_wait d) w (WBlocked fd ev)).
(** One event in handler, :613-659: the waiters it concerns are taken out and
    woken.  epoll_remove_ssock (:620) is the call for system sockets and leaves
    an SRT socket's registration alone. *)
Definition concerned (mask ev : Z) : bool := negb (Z.land mask EV_ERR =? 0) || negb (Z.land mask ev =? 0).
Definition d_fire (d : disp) (fd mask : Z) (st : sstat) : disp :=
  match zget (dp_conds d) fd with
  | None => d
  | Some l =>
      let err := if Z.land mask EV_ERR =? 0 then 0 else srt_socket_error st in
      let hit := filter (fun e => concerned mask (snd e)) l in
      let rest := filter (fun e => negb (concerned mask (snd e))) l in
      mkdp (match rest with [] => zdel (dp_conds d) fd | _ => zput (dp_conds d) fd rest end)
           (dp_reg d)
           (fold_right (fun e m => wput m (fst e) (WWoken fd (snd e) err)) (dp_wait d) hit)
  end.
(** st_srt_epoll after the wait, :558-590. *)
Definition d_leave (d : disp) (w : nat) (fd ret : Z) : disp :=
  let conds := match zget (dp_conds d) fd with
               | None => dp_conds d
               | Some l => zput (dp_conds d) fd (filter (fun e => negb (Nat.eqb (fst e) w)) l)
               end in
  let d1 := mkdp conds (dp_reg d) (dp_wait d) in
  let old := exist_evt d1 fd in
  mkdp conds (if old =? 0 then zdel (dp_reg d) fd else zput (dp_reg d) fd (Z.lor old EV_ETONLY))
       (wput (dp_wait d) w (WReturned ret)).
Inductive dop :=
| DWait (w : nat) (fd ev : Z)            (* a coroutine starts to wait *)
| DFire (fd mask : Z) (st : sstat)       (* the dispatcher handles an event *)
| DResume (w : nat)                      (* a woken coroutine runs on *)
| DTimeout (w : nat).                    (* a blocked one runs on because its time is up *)
(** A wait has a fresh name and one event bit; other operations are ignored
    unless they are possible. *)
Definition d_step (d : disp) (op : dop) : disp :=
  match op with
  | DWait w fd ev =>
      match wget (dp_wait d) w with
      | Some _ => d
      | None => if (ev =? EV_IN) || (ev =? EV_OUT) then d_wait d w fd ev else d
      end
  | DFire fd mask st => d_fire d fd mask st
  | DResume w =>
      match wget (dp_wait d) w with
      | Some (WWoken fd _ err) => d_leave d w fd err
      | _ => d
      end
  | DTimeout w =>
      match wget (dp_wait d) w with
      | Some (WBlocked fd _) => d_leave d w fd ERROR_SRT_SOCKET_TIMEOUT
      | _ => d
      end
  end.
Definition d_run (d : disp) (ops : list dop) : disp := fold_left d_step ops d.
