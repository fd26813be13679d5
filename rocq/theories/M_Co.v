(** Coroutines and the objects they run on: sys/sps_sys_co.cpp,
    sys/st/sps_sys_st_co.cpp, and Server::accept with the set of connections
    (module/server/sps_server.cpp, util/sps_util_typedef.hpp:66-82).
    A coroutine is started with a bare pointer to its STCo (the [co] member of the
    handler, sps_sys_co.cpp:36), which holds the handler weakly
    (sps_sys_st_co.hpp:54); references to handlers are counted explicitly.
    Simplified: a handler's destructor is taken to close its socket (the handler
    is what keeps [io] after the loop body of sps_server.cpp:83-107); the work of
    [handler()] is one blocking call during which the coroutine may log. *)
From Verif Require Import Base.

(** Who keeps a handler: the local variable of Server::accept (sps_server.cpp:85),
    the set of connections (:106), the local variable of the coroutine
    (sps_sys_st_co.cpp:65), or any other object that starts coroutines (a server
    module, a listener, the starter of an edge and the table of edges). *)
Inductive who := HLocal | HSet | HThread (t : nat) | HOther.
Definition who_eqb (a b : who) : bool :=
  match a, b with
  | HLocal, HLocal | HSet, HSet | HOther, HOther => true
  | HThread t, HThread u => Nat.eqb t u
  | _, _ => false
  end.
(** A coroutine that was created, sps_sys_st_co.cpp:56-59, and one whose handler runs, :75;
    [conn]: the handler is an IConnHandler. *)
Inductive tst := TNew (conn : bool) (h : nat) | TRun (conn : bool) (h : nat).
(** What can be seen: a handler begins, its socket is closed, a line is logged
    with a context id. *)
Inductive obs := BServe (h : nat) | BClose (h : nat) | BLog (h : nat) (id : Z).
(** [k_co]: the [co] member of a handler (sps_sys_co.hpp:58); [k_ids], [k_next]:
    STContext::ids and the static counter (sps_sys_st_co.hpp:37, sps_sys_st_co.cpp:43). *)
Record cst := mkc { k_refs : list (who * nat); k_co : nat -> option nat; k_thr : list (nat * tst); k_ids : list (nat * Z); k_next : Z; k_seen : list obs }.
Definition c0 : cst := mkc [] (fun _ => None) [] [] 0 [].

Definition has_ref (s : cst) (w : who) (h : nat) : bool := existsb (fun x => who_eqb (fst x) w && Nat.eqb (snd x) h) (k_refs s).
Definition alive (s : cst) (h : nat) : bool := existsb (fun x => Nat.eqb (snd x) h) (k_refs s).
(** std::shared_ptr: a copy, std::set::insert, sps_util_typedef.hpp:69-71. *)
Definition hold (s : cst) (w : who) (h : nat) : cst :=
  if has_ref s w h then s else mkc ((w, h) :: k_refs s) (k_co s) (k_thr s) (k_ids s) (k_next s) (k_seen s).
(** A reference goes (a local variable ends, std::set::erase :73-75); with the last
    one the handler, and with it its STCo and its socket. *)
Definition let_go (s : cst) (w : who) (h : nat) : cst :=
  if has_ref s w h then
    let s1 := mkc (filter (fun x => negb (who_eqb (fst x) w && Nat.eqb (snd x) h)) (k_refs s)) (k_co s) (k_thr s) (k_ids s) (k_next s) (k_seen s) in
    if alive s1 h then s1 else mkc (k_refs s1) (k_co s1) (k_thr s1) (k_ids s1) (k_next s1) (BClose h :: k_seen s1)
  else s.
Fixpoint thr_get (l : list (nat * tst)) (t : nat) : option tst :=
  match l with [] => None | (u, x) :: r => if Nat.eqb t u then Some x else thr_get r t end.
Definition thr_del (l : list (nat * tst)) (t : nat) : list (nat * tst) := filter (fun x => negb (Nat.eqb (fst x) t)) l.
Fixpoint id_get (l : list (nat * Z)) (t : nat) : Z :=       (* STContext::get_id, sps_sys_st_co.cpp:32-40 *)
  match l with [] => -1 | (u, x) :: r => if Nat.eqb t u then x else id_get r t end.
Definition id_del (l : list (nat * Z)) (t : nat) : list (nat * Z) := filter (fun x => negb (Nat.eqb (fst x) t)) l.

(** ICoFactory::start, sps_sys_co.cpp:30-38, with STCoFactory::_start and STCo::start
    (sps_sys_st_co.cpp:55-61, 88-94); [ok]: st_thread_create gave a thread, [t]. *)
Definition co_start (s : cst) (conn : bool) (t h : nat) (ok : bool) : cst * bool :=
  if ok then (mkc (k_refs s) (fun x => if Nat.eqb x h then Some t else k_co s x) ((t, TNew conn h) :: k_thr s) (k_ids s) (k_next s) (k_seen s), true)
  else (s, false).
(** STCo::main_co up to handler(), sps_sys_st_co.cpp:63-75: [p->h] reads the STCo,
    which is there as long as its handler is and keeps it. *)
Definition co_begin (s : cst) (t : nat) : res cst :=
  match thr_get (k_thr s) t with
  | Some (TNew conn h) =>
      if alive s h && match k_co s h with Some u => Nat.eqb u t | None => false end then
        let s1 := hold s (HThread t) h in                                                      (* :65 *)
        if k_next s1 =? 2147483647 then UB                                                      (* :43-44: id++ past INT_MAX *)
        else Ok (mkc (k_refs s1) (k_co s1) ((t, TRun conn h) :: thr_del (k_thr s1) t) ((t, k_next s1) :: id_del (k_ids s1) t) (k_next s1 + 1)
                     (BServe h :: k_seen s1))                                                   (* :71, :74-75 *)
      else UB
  | _ => Ok s
  end.
(** The rest, sps_sys_st_co.cpp:76-82; on_stop is IConnHandler's, sps_server.cpp:39-41,
    or ICoHandler's, which does nothing (sps_sys_co.hpp:55). *)
Definition co_finish (s : cst) (t : nat) : cst :=
  match thr_get (k_thr s) t with
  | Some (TRun conn h) =>
      let s1 := if conn then let_go s HSet h else s in
      let s2 := mkc (k_refs s1) (k_co s1) (thr_del (k_thr s1) t) (id_del (k_ids s1) t) (k_next s1) (k_seen s1) in
      let_go s2 (HThread t) h
  | _ => s
  end.
(** A line logged inside handler(), log/sps_log.hpp:66-76. *)
Definition co_log (s : cst) (t : nat) : cst :=
  match thr_get (k_thr s) t with
  | Some (TRun _ h) => mkc (k_refs s) (k_co s) (k_thr s) (k_ids s) (k_next s) (BLog h (id_get (k_ids s) t) :: k_seen s)
  | _ => s
  end.

(** What happens: a connection is accepted (the loop body of Server::accept,
    sps_server.cpp:84-106, the parts that touch the handler); another object
    starts a coroutine on a handler it keeps (sps_server_module.cpp:129, :166,
    sps_sys_st_io_ssl.cpp:507, :521, sps_sys_st_io_udp.cpp:379,
    sps_sys_st_io_srt.cpp:523, sps_stream_edge.cpp:150-151 and :84-88), and later lets
    the handler go; a coroutine begins, logs, ends. *)
Inductive cop := KAccept (t h : nat) (ok : bool) | KOther (t h : nat) (ok : bool) | KForget (h : nat) | KBegin (t : nat) | KLog (t : nat) | KFinish (t : nat).
Definition cstep (s : cst) (o : cop) : res cst :=
  match o with
  | KAccept t h ok =>
      let s1 := hold s HLocal h in                               (* :85 *)
      let '(s2, started) := co_start s1 true t h ok in                (* :101 *)
      let s3 := if started then hold s2 HSet h else s2 in        (* :106, :103 *)
      Ok (let_go s3 HLocal h)
  | KOther t h ok => Ok (fst (co_start (hold s HOther h) false t h ok))
  | KForget h => Ok (let_go s HOther h)
  | KBegin t => co_begin s t
  | KLog t => Ok (co_log s t)
  | KFinish t => Ok (co_finish s t)
  end.
Fixpoint crun (s : cst) (os : list cop) : res cst :=
  match os with [] => Ok s | o :: r => let? s' := cstep s o in crun s' r end.
