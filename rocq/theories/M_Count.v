(** The packet counter of a stream's cache. *)
From Verif Require Import Base M_Packet M_Cache.

(** AVGopCacheStream::put, src/avformat/sps_avformat_cache.cpp:32-57, with the
    [number++] of :35 on an [int] (src/avformat/sps_avformat_cache.hpp:45):
    counting past 2147483647 is undefined. *)
Definition counted_put (g : gop) (p : pkt) : res gop :=
  if g_number g =? 2147483647 then UB else Ok (gop_put g p).
(** The loop of StreamDecoder::decode, src/module/stream/sps_stream.cpp:49-57,
    over the packets the demuxer returned. *)
Fixpoint counted_puts (g : gop) (ps : list pkt) : res gop :=
  match ps with
  | [] => Ok g
  | p :: r => let? g1 := counted_put g p in counted_puts g1 r
  end.
