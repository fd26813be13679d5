(** Waiting with time: players that wait for an edge to reach its origin
    (src/module/stream/sps_stream_edge.cpp) and players that wait for packets
    (src/avformat/sps_avformat_cache.cpp:106-115), on top of the events of
    M_Live.v.

    Coroutines and time.  State-Threads runs one coroutine at a time and switches
    only in a blocking call.  A coroutine whose wait is over is runnable; the
    clock advances only while nobody is runnable (computing takes no time), and
    never beyond the next deadline.  StCondition
    (src/sys/st/sps_sys_st_sync.hpp:39-45): a wait ends when the condition is
    signalled, which wakes all its waiters, or when its time is over; a signal
    with nobody waiting is lost. *)
From Verif Require Import Base M_Packet M_Cache M_Live.

(** Both waits last 10 seconds: sps_stream_edge.cpp:119 and
    src/module/stream/sps_stream_handler.cpp:110 (microseconds). *)
Definition WAIT_US : Z := 10000000.

(** Where a player's coroutine (StreamHandler::play, sps_stream_handler.cpp:87-119)
    stands; [since]: when it began to wait; [own]: whether this player made the
    edge: its start_edge keeps a reference to the object,
    src/module/stream/sps_stream_edge.cpp:135 and :150, until it returns, :155. *)
Inductive pstate :=
  | PEdge (name : list Z) (e : nat) (own : bool) (since : Z)   (* in wait_edge, sps_stream_edge.cpp:116-123, on edge [e] *)
  | PWoken (name : list Z) (own : option nat) (since : Z)      (* that wait is over; runnable *)
  | PWriting                                      (* writing to its client: encode, sps_stream.cpp:74, :91-98 *)
  | PIdle (since : Z)                             (* in AVDumpCacheStream::dump, sps_avformat_cache.cpp:108 *)
  | PReady (since : Z)                            (* that wait is over; runnable *)
  | PEnd (since at_ : Z) (code : Z).              (* play returned *)

(** The players by identity, in the order of their arrival. *)
Definition threads := list (nat * pstate).
Fixpoint t_get (l : threads) (v : nat) : option pstate :=
  match l with [] => None | (w, p) :: r => if Nat.eqb v w then Some p else t_get r v end.
Fixpoint t_set (l : threads) (v : nat) (x : pstate) : threads :=
  match l with [] => [(v, x)] | (w, p) :: r => if Nat.eqb v w then (w, x) :: r else (w, p) :: t_set r v x end.
Definition t_map (f : nat -> pstate -> pstate) (l : threads) : threads := map (fun t => (fst t, f (fst t) (snd t))) l.

Record wst := mkw { w_live : live; w_now : Z; w_thr : threads }.
Definition w0 : wst := mkw live0 0 [].

(** StreamEdge::wait, sps_stream_edge.cpp:111-114, ends for everyone who waits on
    edge [i]: signalled at :73 and :106. *)
Definition wake_edge (i : nat) (v : nat) (p : pstate) : pstate :=
  match p with PEdge n e b t => if Nat.eqb e i then PWoken n (if b then Some e else None) t else p | _ => p end.
(** Subscriber::on_event, src/sys/sps_sys_sync.hpp:78-82: a player that waits with an
    empty queue and is given a packet is signalled. *)
Definition queue_of (s : live) (v : nat) : list pkt :=
  match l_views s v with Some x => v_queue x | None => [] end.
Definition wake_data (s : live) (v : nat) (p : pstate) : pstate :=
  match p with PIdle t => match queue_of s v with [] => p | _ => PReady t end | _ => p end.
(** st_cond_timedwait: the deadline. *)
Definition expire (now : Z) (v : nat) (p : pstate) : pstate :=
  match p with
  | PEdge n e b t => if t + WAIT_US <=? now then PWoken n (if b then Some e else None) t else p
  | PIdle t => if t + WAIT_US <=? now then PReady t else p
  | _ => p
  end.
Definition runnable (p : pstate) : bool := match p with PWoken _ _ _ | PReady _ => true | _ => false end.
Definition not_over (now : Z) (p : pstate) : bool :=
  match p with PEdge _ _ _ t | PIdle t => now <=? t + WAIT_US | _ => true end.
(** The edge object a player refers to, and whether any player refers to [i].  The
    coroutine of the edge refers to it too until it ends (STCo::main_co,
    src/sys/st/sps_sys_st_co.cpp:63-82), and StreamEdgeManager until it stops. *)
Definition owns (p : pstate) : option nat :=
  match p with PEdge _ e true _ => Some e | PWoken _ o _ => o | _ => None end.
Definition held (l : threads) (i : nat) : bool :=
  existsb (fun x => match owns (snd x) with Some e => Nat.eqb e i | None => false end) l.

(** ** Events *)
Inductive wop :=
  | WSrc (o : op)                      (* a source: publishers and edges *)
  | WArrive (v : nat) (addr : Z) (name : list Z) (edge : bool) (i : nat) (started : bool)
                                       (* StreamHandler::play begins; [edge]: host->edge(); [i], [started]: the
                                          edge object made if there is none, and whether it can be started *)
  | WRun (v : nat) (addr : Z)          (* a runnable player goes on *)
  | WWrote (v : nat) (code : Z)        (* the writes of a player are done; 0 is SUCCESS *)
  | WTime (t : Z).                     (* the clock reaches t *)

(** Events of sources. *)
Definition by_source (o : op) : bool :=
  match o with OPublish _ _ | OSrtPublish _ _ | OEdgeOpen _ | OPut _ _ _ | OEnd _ => true | _ => false end.

(** sps_stream_handler.cpp:97-115 once the lookup has happened, up to the first
    blocking write; a format without an encoder (:103-109) is not modelled. *)
Definition enter (shape : shaper) (s : wst) (v : nat) (addr : Z) (name : list Z) (since : Z) : wst :=
  match step shape (w_live s) (OPlay v addr name) with
  | (l, Done) => mkw l (w_now s) (t_set (w_thr s) v PWriting)
  | (l, Refused c) => mkw l (w_now s) (t_set (w_thr s) v (PEnd since (w_now s) c))
  | _ => s
  end.
(** StreamEncoder::encode, src/module/stream/sps_stream.cpp:81-99, from the top of the
    loop with a queue that is not empty: take it and write it. *)
Definition take_queue (shape : shaper) (s : wst) (v : nat) : wst :=
  mkw (fst (step shape (w_live s) (OPoll v))) (w_now s) (t_set (w_thr s) v PWriting).
(** The end of play: cache->cancel(cc), sps_stream_handler.cpp:116-118. *)
Definition leave (shape : shaper) (s : wst) (v : nat) (since code : Z) : wst :=
  mkw (fst (step shape (w_live s) (OLeave v))) (w_now s) (t_set (w_thr s) v (PEnd since (w_now s) code)).

(** start_edge returns to its player: the reference it had is gone; if the coroutine
    of the edge has ended the object is destroyed. *)
Definition unref (shape : shaper) (s : wst) (v : nat) (name : list Z) (own : option nat) (since : Z) : wst :=
  match own with
  | Some e => mkw (fst (step shape (w_live s) (OEdgeDrop e))) (w_now s) (t_set (w_thr s) v (PWoken name None since))
  | None => s
  end.

Definition wstep (shape : shaper) (s : wst) (o : wop) : wst :=
  match o with
  | WSrc o =>
      if by_source o then
        match step shape (w_live s) o with
        | (l, Done) =>
            mkw (match o with
                 (* the coroutine's reference goes as it ends, sps_sys_st_co.cpp:63-82 *)
                 | OEnd i => if held (w_thr s) i then l else fst (step shape l (OEdgeDrop i))
                 | _ => l
                 end)
              (w_now s)
              (match o with
               | OEdgeOpen i | OEnd i => t_map (wake_edge i) (w_thr s)
               | OPut _ _ _ => t_map (wake_data l) (w_thr s)
               | _ => w_thr s
               end)
        | _ => s
        end
      else s
  | WArrive v addr name edge i started =>
      match t_get (w_thr s) v, l_views (w_live s) v with
      | None, None =>
          match l_reg (w_live s) name with
          | Some _ => enter shape s v addr name (w_now s)                 (* sps_stream_handler.cpp:90 *)
          | None =>
              if edge then
                match l_edges (w_live s) name with
                | Some e => mkw (w_live s) (w_now s) (t_set (w_thr s) v (PEdge name e false (w_now s)))   (* sps_stream_edge.cpp:117-120 *)
                | None =>
                    if started then
                      match step shape (w_live s) (OEdgeStart i name) with
                      | (l, Done) => mkw l (w_now s) (t_set (w_thr s) v (PEdge name i true (w_now s)))   (* :150-155 *)
                      | _ => s
                      end
                    else                                                  (* :143-147, :84; then :155 and :122 *)
                      mkw (w_live s) (w_now s) (t_set (w_thr s) v (PEnd (w_now s) (w_now s) ERROR_STREAM_SOURCE_NOT_EXITS))
                end
              else mkw (w_live s) (w_now s) (t_set (w_thr s) v (PEnd (w_now s) (w_now s) ERROR_STREAM_SOURCE_NOT_EXITS))
          end
      | _, _ => s
      end
  | WRun v addr =>
      match t_get (w_thr s) v with
      | Some (PWoken name own since) =>
          (* start_edge returns, sps_stream_edge.cpp:155, and drops its reference; then sps_stream_handler.cpp:94 *)
          enter shape (unref shape s v name own since) v addr name since
      | Some (PReady since) =>
          match queue_of (w_live s) v with
          | [] => leave shape s v since ERROR_SOCKET_TIMEOUT              (* sps_avformat_cache.cpp:111-113, sps_stream.cpp:85-89 *)
          | _ => take_queue shape s v
          end
      | _ => s
      end
  | WWrote v code =>
      match t_get (w_thr s) v with
      | Some PWriting =>
          if code =? 0 then
            match queue_of (w_live s) v with
            | [] => mkw (w_live s) (w_now s) (t_set (w_thr s) v (PIdle (w_now s)))   (* sps_avformat_cache.cpp:107-108 *)
            | _ => take_queue shape s v
            end
          else leave shape s v (w_now s) code
      | _ => s
      end
  | WTime t =>
      if (w_now s <=? t) && forallb (fun x => negb (runnable (snd x)) && not_over t (snd x)) (w_thr s)
      then mkw (w_live s) t (t_map (expire t) (w_thr s)) else s
  end.

Fixpoint wrun (shape : shaper) (s : wst) (os : list wop) : wst :=
  match os with [] => s | o :: r => wrun shape (wstep shape s o) r end.
