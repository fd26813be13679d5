(** UDP server sockets and their sessions, src/sys/st/io/sps_sys_st_io_udp.cpp.

    The kernel and the coroutine library are outside: a datagram carries its
    real source and destination, a read on a session is taken at the moment it
    stops waiting, and a send is complete. *)
From Verif Require Import Base M_Text.

(** ** A session's queue, StUdpSessionClientSocket :291-341 *)
Record uqueue := mkuq { uq_list : list (list Z); uq_size : Z }.
(** The constructor, :291-296. *)
Definition uq_new : uqueue := mkuq [] 0.
Definition uq_max : Z := 4000.
(** push, :325-341; the result is always SUCCESS. *)
Definition uq_push (q : uqueue) (d : list Z) : uqueue :=
  if uq_max <=? uq_size q then q else mkuq (uq_list q ++ [d]) (uq_size q + 1).
(** read, :301-323, after any waiting. *)
Definition uq_read (q : uqueue) (size : Z) : res (list Z) * uqueue :=
  match uq_list q with
  | [] => (Err ERROR_SOCKET_TIMEOUT, q)
  | d :: l => if size <? zlen d then (Err ERROR_SOCKET_BUFFER_SMALL, q) else (Ok d, mkuq l (uq_size q - 1))
  end.
(** read_fully, StUdpClientSocket :138-152, with the session's read: the bytes
    stored so far stay in the buffer when a later read fails. *)
Fixpoint uq_read_fully (fuel : nat) (q : uqueue) (size : Z) (got : list Z) : res (list Z) * uqueue :=
  match fuel with
  | O => (Fuel, q)
  | S f =>
      if size <=? zlen got then (Ok got, q) else
      match uq_read q (size - zlen got) with
      | (Ok d, q1) => uq_read_fully f q1 size (got ++ d)
      | (Err c, q1) => (Err c, q1)
      | (UB, q1) => (UB, q1) | (Fuel, q1) => (Fuel, q1)
      end
  end.
(** Arrivals and reads in any order. *)
Inductive qop := QPush (d : list Z) | QRead (size : Z).
Fixpoint q_run (q : uqueue) (ops : list qop) : list (res (list Z)) * uqueue :=
  match ops with
  | [] => ([], q)
  | QPush d :: l => q_run (uq_push q d) l
  | QRead n :: l => let '(r, q1) := uq_read q n in let '(rs, q2) := q_run q1 l in (r :: rs, q2)
  end.

(** ** Addresses

    The address text of inet_ntop is the C library's. *)
Record ntop := mknt { nt4 : list Z -> list Z; nt6 : list Z -> list Z }.
(** read with addresses, :185-235, for a datagram to [dst] (four bytes).  The
    peer address it is handed is never written.  The destination is taken from
    the packet information, but &ipi_addr is read as a sockaddr_in: the
    family is the first two bytes of the address, the port the other two, and
    the address the bytes behind ([pad], whatever the control buffer holds).
    addr2string (src/io/sps_io_socket.cpp:36-46) leaves its results alone when
    the family is neither AF_INET nor AF_INET6. *)
Definition dst_view (nt : ntop) (dst pad : list Z) : list Z * Z :=
  match dst with
  | [a; b; c; d] =>
      if (a =? 2) && (b =? 0) then (nt4 nt (take 4 pad), 256 * c + d)
      else if (a =? 10) && (b =? 0) then (nt6 nt (take 16 pad), 256 * c + d)
      else ([], 0)
  | _ => ([], 0)
  end.
Record addrs := mkad { ad_pip : list Z; ad_pport : Z; ad_sip : list Z; ad_sport : Z }.
Definition recv_addrs (nt : ntop) (src : list Z * Z) (dst pad : list Z) : addrs :=
  mkad [] 0 (fst (dst_view nt dst pad)) (snd (dst_view nt dst pad)).
(** generate_key, :432-435. *)
Definition ukey (a : addrs) : list Z :=
  ad_pip a ++ str ":" ++ decs (ad_pport a) ++ str "->" ++ ad_sip a ++ decs (ad_sport a).

(** ** The server, StUdpServerSocket :356-460 *)
Record usess := mkus { us_addr : addrs; us_q : uqueue }.
(** Sessions by number ([None]: destroyed), the map of weak pointers and the
    sessions nobody accepted yet. *)
Record userv := mkuv { uv_sess : list (option usess); uv_map : list (list Z * nat); uv_new : list nat }.
Definition uv_start : userv := mkuv [] [] [].
Fixpoint map_find (k : list Z) (m : list (list Z * nat)) : option nat :=
  match m with [] => None | (k', v) :: m' => if eqb_list k' k then Some v else map_find k m' end.
Definition map_erase (k : list Z) (m : list (list Z * nat)) : list (list Z * nat) :=
  filter (fun e => negb (eqb_list (fst e) k)) m.
Definition get_sess (s : userv) (i : nat) : option usess :=
  match nth_error (uv_sess s) i with Some (Some u) => Some u | _ => None end.
Fixpoint set_nth {A} (i : nat) (x : A) (l : list A) : list A :=
  match l, i with
  | [], _ => []
  | _ :: l', O => x :: l'
  | y :: l', S j => y :: set_nth j x l'
  end.
Definition set_sess (s : userv) (i : nat) (u : option usess) : userv :=
  mkuv (set_nth i u (uv_sess s)) (uv_map s) (uv_new s).

Inductive uop :=
| UArrive (src : list Z * Z) (dst pad data : list Z)   (* a datagram reaches the socket *)
| UAccept                                               (* accept(), :389-399 *)
| URead (i : nat) (size : Z)                            (* a read on an accepted session *)
| UWrite (i : nat) (data : list Z)                      (* a write on it *)
| UDestroy (i : nat).                                   (* its last owner lets go of it *)
Inductive uout := UNone | UWaits | UAccepted (i : nat) | UGot (r : res (list Z)) | USent (ip : list Z) (port : Z) (d : list Z) | UCrash.

(** One round of handler, :401-426, with search_or_create, :437-453.  The
    receive buffer has 4096 bytes; longer datagrams are cut by the kernel. *)
Definition u_arrive (nt : ntop) (s : userv) (src : list Z * Z) (dst pad data : list Z) : userv * uout :=
  let a := recv_addrs nt src dst pad in
  let d := take 4096 data in
  match map_find (ukey a) (uv_map s) with
  | Some i =>
      match get_sess s i with
      | Some u => (set_sess s i (Some (mkus (us_addr u) (uq_push (us_q u) d))), UNone)
      | None => (s, UCrash)      (* the weak pointer is empty: a null session *)
      end
  | None =>
      let i := length (uv_sess s) in
      (mkuv (uv_sess s ++ [Some (mkus a (uq_push uq_new d))]) (uv_map s ++ [(ukey a, i)]) (uv_new s ++ [i]), UNone)
  end.
(** write, :246-268, with the peer address of the constructor, :101-118:
    INADDR_ANY and the port; no call connects a session. *)
Definition u_write (u : usess) (data : list Z) : uout :=
  match data with
  | [] => UNone
  | _ => USent [0; 0; 0; 0] (u16 (ad_pport (us_addr u))) data
  end.
Definition u_step (nt : ntop) (s : userv) (op : uop) : userv * uout :=
  match op with
  | UArrive src dst pad data => u_arrive nt s src dst pad data
  | UAccept => match uv_new s with [] => (s, UWaits) | i :: l => (mkuv (uv_sess s) (uv_map s) l, UAccepted i) end
  | URead i size =>
      match get_sess s i with
      | Some u => let '(r, q) := uq_read (us_q u) size in (set_sess s i (Some (mkus (us_addr u) q)), UGot r)
      | None => (s, UNone)
      end
  | UWrite i data => match get_sess s i with Some u => (s, u_write u data) | None => (s, UNone) end
  | UDestroy i =>
      (* ~UdpSessionSocket :352-354, on_destroy :428-430 and remove :455-460;
         sessions waiting to be accepted are owned by the server's list *)
      match get_sess s i with
      | Some u =>
          if existsb (Nat.eqb i) (uv_new s) then (s, UNone)
          else (mkuv (set_nth i None (uv_sess s)) (map_erase (ukey (us_addr u)) (uv_map s)) (uv_new s), UNone)
      | None => (s, UNone)
      end
  end.
Fixpoint u_run (nt : ntop) (s : userv) (ops : list uop) : list uout * userv :=
  match ops with
  | [] => ([], s)
  | op :: l => let '(s1, o) := u_step nt s op in let '(os, s2) := u_run nt s1 l in (o :: os, s2)
  end.
