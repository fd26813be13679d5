(** Packet caches and packet buffers. *)
From Verif Require Import Base M_Packet.

(** ** AVGopCacheStream, src/avformat/sps_avformat_cache.hpp:35-46.
    [g_pbs] is the inherited list (src/cache/sps_cache.hpp:118). *)
Record gop := mkgop {
  g_script : option pkt; g_audio : option pkt; g_video : option pkt;
  g_pbs : list pkt; g_number : Z
}.
Definition gop0 : gop := mkgop None None None [] 0.

(** AVGopCacheStream::put, src/avformat/sps_avformat_cache.cpp:32-57, without
    the publication of line 55 (M_Live.v).  A null packet is ignored there; the
    decoders never produce one, so packets are not optional here.  The running
    number (signed 32 bit) is only logged. *)
Definition gop_put (g : gop) (p : pkt) : gop :=
  let n := g_number g + 1 in
  if is_audio_seq p then mkgop (g_script g) (Some p) (g_video g) (g_pbs g) n
  else if is_video_seq p then mkgop (g_script g) (g_audio g) (Some p) (g_pbs g) n
  else if is_script p then mkgop (Some p) (g_audio g) (g_video g) (g_pbs g) n
  else if is_keyframe p then mkgop (g_script g) (g_audio g) (g_video g) [p] n
  else match g_pbs g with
       | [] => mkgop (g_script g) (g_audio g) (g_video g) [] n
       | _ :: _ => mkgop (g_script g) (g_audio g) (g_video g) (g_pbs g ++ [p]) n
       end.

Definition opt_list {A} (o : option A) : list A :=
  match o with Some x => [x] | None => [] end.

(** AVGopCacheStream::dump, :59-73, with CacheStream::dump,
    src/cache/sps_cache.hpp:86-94 (never removes): what is appended to the
    caller's list, and the returned count, which leaves out the headers. *)
Definition gop_dump (g : gop) : list pkt * Z :=
  (opt_list (g_script g) ++ opt_list (g_audio g) ++ opt_list (g_video g) ++ g_pbs g,
   zlen (g_pbs g)).

(** ** MepegtsCacheStream, src/avformat/sps_avformat_cache.hpp:49-58. *)
Record tsc := mktsc { t_pat : option pkt; t_pmt : option pkt; t_pbs : list pkt }.
Definition tsc0 : tsc := mktsc None None [].

(** MepegtsCacheStream::put, src/avformat/sps_avformat_cache.cpp:75-88. *)
Definition tsc_put (t : tsc) (p : pkt) : tsc :=
  if is_pat p then mktsc (Some p) (t_pmt t) (t_pbs t)
  else if is_pmt p then mktsc (t_pat t) (Some p) (t_pbs t)
  else mktsc (t_pat t) (t_pmt t) ((if is_unit_start p then [] else t_pbs t) ++ [p]).

(** MepegtsCacheStream::dump, :90-100. *)
Definition tsc_dump (t : tsc) : list pkt * Z :=
  (opt_list (t_pat t) ++ opt_list (t_pmt t) ++ t_pbs t, zlen (t_pbs t)).

(** ** CharBuffer, src/cache/sps_cache_buffer.hpp:53-90: the allocation (head
    room and payload area), the payload length, the head room and the declared
    capacity. *)
Record cbuf := mkcb { cb_mem : list Z; cb_len : Z; cb_head : Z; cb_cap : Z }.

(** CharBuffer(cap, head_len), src/cache/sps_cache_buffer.cpp:51-56; [init] is
    the uninitialised content of [new uint8_t[cap + head_len]], whose length is
    computed in uint32. *)
Definition cb_new (init : list Z) (cap head : Z) : cbuf :=
  mkcb (take (u32 (cap + head)) init) 0 head cap.

(** CharBuffer(buf, len, head_len), :39-49. *)
Definition cb_of (init : list Z) (data : list Z) (head : Z) : res cbuf :=
  let n := zlen data in
  if u32 (head + n) =? 0 then Ok (mkcb [] n head n)
  else if u32 (head + n) =? head + n
       then Ok (mkcb (take head init ++ data) n head n)
       else UB.

(** remain(), src/cache/sps_cache_buffer.hpp:82. *)
Definition cb_remain (b : cbuf) : Z := u32 (cb_cap b - cb_len b).

(** A failed assert (a debug build aborts the process). *)
Definition ASSERT := -1.

(** append, :71-75: memcpy to [pos() = buf + len] (:81). *)
Definition cb_append (b : cbuf) (p : list Z) : res cbuf :=
  if cb_remain b <? zlen p then Err ASSERT
  else
    let? _ := of_opt (slice (cb_mem b) (cb_len b) (zlen p)) in
    Ok (mkcb (take (cb_len b) (cb_mem b) ++ p ++ drop (cb_len b + zlen p) (cb_mem b))
             (u32 (cb_len b + zlen p)) (cb_head b) (cb_cap b)).

(** skip, :77-80. *)
Definition cb_skip (b : cbuf) (n : Z) : res cbuf :=
  if cb_remain b <? n then Err ASSERT
  else Ok (mkcb (cb_mem b) (u32 (cb_len b + n)) (cb_head b) (cb_cap b)).

(** What readers use: [buffer()[0 .. size())], :66-67. *)
Definition cb_contents (b : cbuf) : res (list Z) :=
  of_opt (slice (cb_mem b) (cb_head b) (cb_len b)).

(** Repeated appends (a simplification: the callers interleave other work). *)
Fixpoint cb_appends (b : cbuf) (ps : list (list Z)) : res cbuf :=
  match ps with
  | [] => Ok b
  | p :: r => let? b' := cb_append b p in cb_appends b' r
  end.
