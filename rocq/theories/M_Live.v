(** Live streams: the stream registry, sources (publishers and edge pulls),
    caches with their subscribers, and viewers.

    The server is single threaded with cooperative coroutines, so each [op]
    below is one uninterrupted piece of code between two yields. *)
From Verif Require Import Base M_Packet M_Cache.

(** ** The subscriber set: std::set<weak_ptr, WeakPtrLessThan>,
    src/sys/sps_sys_sync.hpp:130-131.  A search tree of (viewer, address). *)
Definition entry := (nat * Z)%type.
Inductive tr := Lf | Nd (l : tr) (x : entry) (r : tr).
Fixpoint inorder (t : tr) : list entry :=
  match t with Lf => [] | Nd l x r => inorder l ++ x :: inorder r end.

(** WeakPtrLessThan, src/sys/sps_sys_sync.hpp:93-101; [alive] says whether the
    weak pointer still locks. *)
Definition wless (alive : nat -> bool) (a b : entry) : bool :=
  if negb (alive (fst b)) then false
  else if negb (alive (fst a)) then true
  else snd a <? snd b.

(** std::set::insert as in libstdc++ (_M_get_insert_unique_pos): descend left
    when the key is less, else right; at the leaf compare with the in-order
    predecessor [j] (the last node where the walk went right).  [None]: an
    equivalent element is present.  Rebalancing is separate, see [shape]. *)
Fixpoint set_insert (alive : nat -> bool) (k : entry) (t : tr) (j : option entry) : option tr :=
  match t with
  | Lf => match j with
          | None => Some (Nd Lf k Lf)
          | Some y => if wless alive y k then Some (Nd Lf k Lf) else None
          end
  | Nd l x r =>
      if wless alive k x
      then match set_insert alive k l j with Some l' => Some (Nd l' x r) | None => None end
      else match set_insert alive k r (Some x) with Some r' => Some (Nd l x r') | None => None end
  end.

(** lower_bound / upper_bound / equal_range as in libstdc++, as in-order
    positions. *)
Fixpoint set_lower (alive : nat -> bool) (k : entry) (t : tr) : nat :=
  match t with
  | Lf => 0
  | Nd l x r => if wless alive x k then length (inorder l) + 1 + set_lower alive k r
                else set_lower alive k l
  end%nat.
Fixpoint set_upper (alive : nat -> bool) (k : entry) (t : tr) : nat :=
  match t with
  | Lf => 0
  | Nd l x r => if wless alive k x then set_upper alive k l
                else length (inorder l) + 1 + set_upper alive k r
  end%nat.
Fixpoint set_range (alive : nat -> bool) (k : entry) (t : tr) : nat * nat :=
  match t with
  | Lf => (0, 0)
  | Nd l x r =>
      if wless alive x k
      then let '(a, b) := set_range alive k r in
           (length (inorder l) + 1 + a, length (inorder l) + 1 + b)
      else if wless alive k x then set_range alive k l
      else (set_lower alive k l, length (inorder l) + 1 + set_upper alive k r)
  end%nat.
(** std::set::erase(key): removes [equal_range(key)]. *)
Definition set_erase (alive : nat -> bool) (k : entry) (t : tr) : list entry :=
  let '(a, b) := set_range alive k t in
  firstn a (inorder t) ++ skipn b (inorder t).

(** ** State. *)
Inductive store := SGop (g : gop) | STs (t : tsc).
Definition st_put (s : store) (p : pkt) : store :=
  match s with SGop g => SGop (gop_put g p) | STs t => STs (tsc_put t p) end.
Definition st_dump (s : store) : list pkt :=
  match s with SGop g => fst (gop_dump g) | STs t => fst (tsc_dump t) end.

Record cache := mkcache { c_store : store; c_subs : tr }.
(** An AVDumpCacheStream (src/avformat/sps_avformat_cache.hpp:61-70) and what
    its player already took: the cache it plays, its address, the queue, the
    packets taken so far, and whether the object still exists. *)
Record viewer := mkv { v_cid : nat; v_addr : Z; v_queue : list pkt; v_got : list pkt; v_alive : bool }.
(** A source: an edge still connecting, or an active source with the registry
    keys it created and their caches, or an edge whose coroutine has ended while
    its object still exists ([cached]: its [cache] member is set), or one that
    is gone. *)
Inductive source :=
  | SOpening (name : list Z)
  | SActive (edge : bool) (keys : list (list Z * nat))
  | SLeft (cached : bool) (keys : list (list Z))
  | SDone.

Record live := mkl {
  l_reg : list Z -> option nat;          (* InfiniteCache::css, sps_cache.hpp:165 *)
  l_edges : list Z -> option nat;        (* StreamEdgeManager, sps_stream_edge.hpp:34 *)
  l_next : nat;                          (* next cache object *)
  l_caches : nat -> cache;
  l_src : nat -> option source;          (* by connection / edge object *)
  l_views : nat -> option viewer         (* by viewer *)
}.
Definition live0 : live :=
  mkl (fun _ => None) (fun _ => None) 0 (fun _ => mkcache (SGop gop0) Lf) (fun _ => None) (fun _ => None).

Definition updn {A} (f : nat -> A) (k : nat) (v : A) : nat -> A :=
  fun j => if Nat.eqb j k then v else f j.
Definition updk {A} (f : list Z -> A) (k : list Z) (v : A) : list Z -> A :=
  fun j => if eqb_list j k then v else f j.

Definition is_alive (vs : nat -> option viewer) (v : nat) : bool :=
  match vs v with Some x => v_alive x | None => false end.

(** The tree after an operation: red-black rebalancing keeps the in-order
    sequence and is otherwise left open ([shape] is an arbitrary function with
    [inorder (shape n l) = l]; [n] lets equal sequences get different trees). *)
Definition shaper := nat -> list entry -> tr.

(** StreamCache::create_av_streamcache / create_raw_streamcache,
    src/module/stream/sps_stream_cache.hpp:48-58: a new cache under [key],
    replacing whatever is registered. *)
Definition new_cache (s : live) (key : list Z) (st : store) : live :=
  mkl (updk (l_reg s) key (Some (l_next s))) (l_edges s) (S (l_next s))
      (updn (l_caches s) (l_next s) (mkcache st Lf)) (l_src s) (l_views s).
(** release_av_streamcache, :60-62: erases by name. *)
Definition release (s : live) (key : list Z) : live :=
  mkl (updk (l_reg s) key None) (l_edges s) (l_next s) (l_caches s) (l_src s) (l_views s).
Definition set_src (s : live) (i : nat) (x : source) : live :=
  mkl (l_reg s) (l_edges s) (l_next s) (l_caches s) (updn (l_src s) i (Some x)) (l_views s).
Definition set_view (s : live) (i : nat) (x : viewer) : live :=
  mkl (l_reg s) (l_edges s) (l_next s) (l_caches s) (l_src s) (updn (l_views s) i (Some x)).
Definition set_cache (s : live) (i : nat) (x : cache) : live :=
  mkl (l_reg s) (l_edges s) (l_next s) (updn (l_caches s) i x) (l_src s) (l_views s).
Definition set_edge (s : live) (k : list Z) (x : option nat) : live :=
  mkl (l_reg s) (updk (l_edges s) k x) (l_next s) (l_caches s) (l_src s) (l_views s).

(** Subscriber::on_event + CacheStream::do_event/put for one viewer,
    src/sys/sps_sys_sync.hpp:78-82, src/cache/sps_cache.hpp:73-79,113-115 (the
    viewer's own subscriber set is empty). *)
Definition deliver (vs : nat -> option viewer) (v : nat) (p : pkt) : nat -> option viewer :=
  match vs v with
  | Some x => updn vs v (Some (mkv (v_cid x) (v_addr x) (v_queue x ++ [p]) (v_got x) (v_alive x)))
  | None => vs
  end.
(** Publisher::publish, src/sys/sps_sys_sync.hpp:106-119: in-order walk that
    drops expired entries and delivers to the others. *)
Fixpoint publish_to (vs : nat -> option viewer) (es : list entry) (p : pkt)
  : (nat -> option viewer) * list entry :=
  match es with
  | [] => (vs, [])
  | e :: r =>
      if is_alive vs (fst e)
      then let '(vs', k) := publish_to (deliver vs (fst e) p) r p in (vs', e :: k)
      else publish_to vs r p
  end.
(** put on a source's cache: AVGopCacheStream::put / MepegtsCacheStream::put. *)
Definition cache_put (shape : shaper) (s : live) (cid : nat) (p : pkt) : live :=
  let c := l_caches s cid in
  let '(vs, es) := publish_to (l_views s) (inorder (c_subs c)) p in
  mkl (l_reg s) (l_edges s) (l_next s)
      (updn (l_caches s) cid (mkcache (st_put (c_store c) p) (shape (l_next s) es)))
      (l_src s) vs.

(** Prefix of the registry key of an SRT publisher's raw cache,
    src/module/srt/sps_srt_stream_handler.cpp:55. *)
Definition TS_PREFIX : list Z := str "ts://".

(** ** Operations. *)
Inductive op :=
  | OPublish (i : nat) (name : list Z)     (* StreamHandler::publish accepted by the host checks *)
  | OSrtPublish (i : nat) (name : list Z)  (* SrtServerStreamHandler::publish *)
  | OEdgeStart (i : nat) (name : list Z)   (* StreamEdgeEnter::start_edge *)
  | OEdgeOpen (i : nat)                    (* StreamEdge::handler after io->open succeeded *)
  | OPut (i : nat) (k : nat) (p : pkt)     (* source i puts p into its k-th cache *)
  | OEnd (i : nat)                         (* source i stops *)
  | OEdgeDrop (i : nat)                    (* the last reference to an edge that stopped goes *)
  | OPlay (v : nat) (addr : Z) (name : list Z) (* StreamHandler::play with a source present *)
  | OPoll (v : nat)                        (* AVDumpCacheStream::dump *)
  | OLeave (v : nat)                       (* cancel, then the viewer object dies *)
  | OVanish (v : nat).                     (* the viewer object dies without cancel *)

Inductive out := Done | Refused (code : Z) | Given (ps : list pkt) | Ignored.

Definition fresh_addr (s : live) (addr : Z) : Prop :=
  forall v x, l_views s v = Some x -> v_alive x = true -> v_addr x <> addr.

(** One step.  [Ignored]: the event cannot happen in this state (an object
    that does not exist, an identifier used twice). *)
Definition step (shape : shaper) (s : live) (o : op) : live * out :=
  match o with
  | OPublish i name =>
      (* src/module/stream/sps_stream_handler.cpp:69-81; the host and decoder
         checks of :56-67 happen before and touch nothing *)
      match l_src s i with
      | Some _ => (s, Ignored)
      | None =>
          match l_reg s name with
          | Some _ => (s, Refused ERROR_HTTP_HAS_SOURCE)
          | None => (set_src (new_cache s name (SGop gop0)) i (SActive false [(name, l_next s)]), Done)
          end
      end
  | OSrtPublish i name =>
      (* src/module/srt/sps_srt_stream_handler.cpp:52-70 *)
      match l_src s i with
      | Some _ => (s, Ignored)
      | None =>
          match l_reg s name with
          | Some _ => (s, Refused ERROR_RTMP_HAS_SOURCE)
          | None =>
              let s1 := new_cache s name (SGop gop0) in
              let s2 := new_cache s1 (TS_PREFIX ++ name) (STs tsc0) in
              (set_src s2 i (SActive false [(name, l_next s); (TS_PREFIX ++ name, l_next s1)]), Done)
          end
      end
  | OEdgeStart i name =>
      (* src/module/stream/sps_stream_handler.cpp:90-93 (only without a source)
         and sps_stream_edge.cpp:116-151 (only without a running edge); the
         coroutine itself runs later.  A failing RequestUrl::from (:143-147)
         starts nothing and is not an event. *)
      match l_src s i with
      | Some _ => (s, Ignored)
      | None =>
          match l_reg s name, l_edges s name with
          | None, None => (set_edge (set_src s i (SOpening name)) name (Some i), Done)
          | _, _ => (s, Ignored)
          end
      end
  | OEdgeOpen i =>
      (* src/module/stream/sps_stream_edge.cpp:69-74 *)
      match l_src s i with
      | Some (SOpening name) =>
          (set_src (new_cache s name (SGop gop0)) i (SActive true [(name, l_next s)]), Done)
      | _ => (s, Ignored)
      end
  | OPut i k p =>
      (* src/module/stream/sps_stream.cpp:56; sps_srt_stream_handler.cpp:78 and
         TsCache::on_packet, src/avformat/sps_avformat_tsdec.cpp *)
      match l_src s i with
      | Some (SActive _ keys) =>
          match nth_error keys k with
          | Some (_, cid) => (cache_put shape s cid p, Done)
          | None => (s, Ignored)
          end
      | _ => (s, Ignored)
      end
  | OEnd i =>
      (* sps_stream_handler.cpp:83; sps_srt_stream_handler.cpp:82-83;
         StreamEdge::stop, sps_stream_edge.cpp:94-109, called at :79 *)
      match l_src s i with
      | Some (SActive false keys) =>
          (set_src (fold_left release (map fst keys) s) i SDone, Done)
      | Some (SActive true keys) =>
          (set_src (fold_left (fun a k => set_edge a k None) (map fst keys)
                      (fold_left release (map fst keys) s)) i (SLeft true (map fst keys)), Done)
      | Some (SOpening name) => (set_src (set_edge s name None) i (SLeft false [name]), Done)
      | _ => (s, Ignored)
      end
  | OEdgeDrop i =>
      (* ~StreamEdge, sps_stream_edge.cpp:41-43: stop, :94-109, a second time; both
         erasures are by name *)
      match l_src s i with
      | Some (SLeft cached keys) =>
          (set_src (fold_left (fun a k => set_edge a k None) keys
                      (if cached then fold_left release keys s else s)) i SDone, Done)
      | _ => (s, Ignored)
      end
  | OPlay v addr name =>
      (* sps_stream_handler.cpp:87-114 and get_client_streamcache,
         sps_stream_cache.hpp:64-74: subscribe, then copy the snapshot *)
      match l_views s v with
      | Some _ => (s, Ignored)
      | None =>
          match l_reg s name with
          | None => (s, Refused ERROR_STREAM_SOURCE_NOT_EXITS)
          | Some cid =>
              let c := l_caches s cid in
              let x := mkv cid addr (st_dump (c_store c)) [] true in
              let vs := updn (l_views s) v (Some x) in
              let subs := match set_insert (is_alive vs) (v, addr) (c_subs c) None with
                          | Some t => shape (l_next s) (inorder t)
                          | None => c_subs c
                          end in
              (set_cache (set_view s v x) cid (mkcache (c_store c) subs), Done)
          end
      end
  | OPoll v =>
      (* AVDumpCacheStream::dump, src/avformat/sps_avformat_cache.cpp:106-115,
         as of the moment the wait (if any) is over *)
      match l_views s v with
      | Some x =>
          if v_alive x
          then (set_view s v (mkv (v_cid x) (v_addr x) [] (v_got x ++ v_queue x) true), Given (v_queue x))
          else (s, Ignored)
      | None => (s, Ignored)
      end
  | OLeave v =>
      (* sps_stream_handler.cpp:116-118: Publisher::cancel, sps_sys_sync.hpp:125-127 *)
      match l_views s v with
      | Some x =>
          if v_alive x
          then
            let c := l_caches s (v_cid x) in
            let es := set_erase (is_alive (l_views s)) (v, v_addr x) (c_subs c) in
            (set_view (set_cache s (v_cid x) (mkcache (c_store c) (shape (l_next s) es))) v
               (mkv (v_cid x) (v_addr x) (v_queue x) (v_got x) false), Done)
          else (s, Ignored)
      | None => (s, Ignored)
      end
  | OVanish v =>
      (* not in the source: kept to state what Publisher/Subscriber alone
         guarantee (weak_ptr is there so that this may happen) *)
      match l_views s v with
      | Some x =>
          if v_alive x
          then (set_view s v (mkv (v_cid x) (v_addr x) (v_queue x) (v_got x) false), Done)
          else (s, Ignored)
      | None => (s, Ignored)
      end
  end.

Fixpoint run (shape : shaper) (s : live) (os : list op) : live * list out :=
  match os with
  | [] => (s, [])
  | o :: r => let '(s1, x) := step shape s o in
              let '(s2, xs) := run shape s1 r in (s2, x :: xs)
  end.
