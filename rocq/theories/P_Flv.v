(** Properties C06, C07, C08: FLV. *)
From Verif Require Import Base M_IO S_IO L_IO M_Packet M_Flv S_Flv L_Flv.

(** C06: any list of packets the format can carry, muxed and then demuxed
    through any partition of the bytes into reads, comes back unchanged, in
    order, and nothing else comes.  The reader's buffer is [fill] (1 MiB in the
    code, src/avformat/sps_avformat_flv.hpp:32). *)
Theorem flv_mux_demux_roundtrip :
  forall fill ps,
    15 <= zlen fill < 2 ^ 24 -> Forall (flv_transportable (zlen fill)) ps ->
    exists s1 m out,
      flv_write_header None (mksink [] []) = (Ok tt, s1) /\
      flv_write_all flvmux0 ps s1 = (Ok tt, m, mksink [] out) /\
      forall t, nonempty_chunks (t_chunks t) -> t_stream t = out ->
        exists hp r1, flv_demux (S (length ps)) (br_new fill t) = (Ok hp, (ps, Err (t_err t), r1)).
Proof.
  intros fill ps Hf HF.
  destruct (flv_write_all_ok ps flvmux0 flv_default_header) as [pv Hv].
  { eapply Forall_impl; [|exact HF]. intros p (H1 & H2 & H3 & H4 & H5 & H6). split; [|lia].
    unfold flv_known. destruct H6 as [(-> & _)|[(-> & _)|[(-> & _)|(-> & _)]]]; reflexivity. }
  eexists; eexists; eexists. split; [reflexivity|]. split; [exact Hv|].
  intros t Hn Ht. exact (flv_roundtrip fill t ps Hf HF Hn _ _ _ eq_refl Hv Ht).
Qed.
Print Assumptions flv_mux_demux_roundtrip.

Definition flv_ex_packets : list pkt :=
  [ mkpkt AV_MESSAGE_DATA AV_STREAM_TYPE_SUBTITLE 0 7 0 0 0 [2; 0; 10];
    mkpkt AV_MESSAGE_DATA AV_STREAM_TYPE_AUDIO 0 0 0 0xAF CODEC_AAC [0x12; 0x10];
    mkpkt AV_MESSAGE_DATA AV_STREAM_TYPE_VIDEO 1 0x89ABCDEF (0x89ABCDEF - 40) 0x17 CODEC_H264 [9; 8; 7];
    mkpkt AV_MESSAGE_DATA AV_STREAM_TYPE_VIDEO 0 5 0 0x5C CODEC_H265 [1] ].
Example flv_roundtrip_nonvacuous :
  Forall (flv_transportable 64) flv_ex_packets /\
  exists h r, flv_demux 9 (br_new (repeat 0 64)
     (mktr [[0x46]; [0x4C; 0x56; 1; 5; 0; 0; 0; 9] ++ flv_layout 0 flv_ex_packets] ERROR_SOCKET_CLOSED)) =
    (Ok h, (flv_ex_packets, Err ERROR_SOCKET_CLOSED, r)).
Proof.
  split.
  - repeat constructor; try discriminate; cbn; try lia;
      first [left; repeat split; cbn; lia | right; left; repeat split; cbn; lia
            |right; right; left; repeat split; cbn; lia | right; right; right; repeat split; cbn; lia].
  - eexists; eexists. vm_compute. reflexivity.
Qed.

(** C07: the bytes of any sequence of accepted packets are the FLV layout of
    the packets not filtered out: back pointer = size of the previous tag, size
    field = body length, body = codec prefix and payload. *)
Theorem flv_mux_layout :
  forall ps m s1,
    Forall (fun p => flv_known p = true /\ zlen (flv_body p) < 2 ^ 24) ps ->
    flv_write_header None (mksink [] []) = (Ok tt, s1) -> fm_prev m = 0 ->
    exists v, flv_write_all m ps s1 =
      (Ok tt, with_prev m v, mksink [] (flv_default_header ++ flv_layout 0 (filter (flv_kept m) ps))).
Proof.
  intros ps m s1 HF Hh Hm. cbn in Hh. injection Hh as <-.
  destruct (flv_write_all_ok ps m flv_default_header HF) as [v Hv]. exists v. rewrite <- Hm. exact Hv.
Qed.
Print Assumptions flv_mux_layout.

Example flv_mux_layout_nonvacuous :
  Forall (fun p => flv_known p = true /\ zlen (flv_body p) < 2 ^ 24) flv_ex_packets /\
  (let '(_, _, s) := flv_write_all (mkfm 0 false true false) flv_ex_packets (mksink [] []) in sk_out s) =
    [0;0;0;0; 18; 0;0;3; 0;0;7;0; 0;0;0; 2;0;10;
     0;0;0;14; 9; 0;0;8; 0xAB;0xCD;0xEF;0x89; 0;0;0; 0x17;1;0xFF;0xFF;0xD8; 9;8;7;
     0;0;0;19; 9; 0;0;2; 0;0;5;0; 0;0;0; 0x5C; 1].
Proof. split; [repeat constructor; cbn; lia|vm_compute; reflexivity]. Qed.

(** After a failed write of a payload the muxer's back pointer is wrong: a
    caller that goes on produces a malformed file. *)
Theorem flv_mux_after_failed_write_refuted :
  exists p q m1 s1 m2 s2,
    flv_write_packet flvmux0 p (mksink [true; false] []) = (Err ERROR_SOCKET_WRITE, m1, s1) /\
    flv_write_packet m1 q s1 = (Ok tt, m2, s2) /\
    fm_prev m1 <> zlen (flv_tag p) /\ fm_prev m1 <> fm_prev flvmux0.
Proof.
  exists (mkpkt 1 1 1 0 0 0xAF 10 [1; 2]), (mkpkt 1 1 1 0 0 0xAF 10 [1; 2]).
  do 4 eexists. split; [vm_compute; reflexivity|]. split; [vm_compute; reflexivity|].
  split; vm_compute; discriminate.
Qed.
Print Assumptions flv_mux_after_failed_write_refuted.

(** C08: on any input, through any partition, the packets handed out are those
    of the plain-stream reading of the format; the run ends with the error of
    that reading unless it meets a tag shorter than its codec prefix. *)
Theorem flv_demux_arbitrary_input :
  forall fill t h s fuel,
    15 <= zlen fill -> zlen fill < 2 ^ 62 -> nonempty_chunks (t_chunks t) ->
    t_stream t = h ++ s -> zlen h = 9 -> take 3 h = [0x46; 0x4C; 0x56] -> bytes s ->
    exists hp x r1,
      flv_demux fuel (br_new fill t) =
        (Ok hp, (fst (spec_flv_all fuel (zlen fill) (t_err t) s), x, r1)) /\ p_data hp = h /\
      flv_end_ok x (snd (spec_flv_all fuel (zlen fill) (t_err t) s)).
Proof. exact flv_demux_stream. Qed.
Print Assumptions flv_demux_arbitrary_input.

Example flv_demux_arbitrary_input_ex :
  spec_flv_all 5 64 ERROR_SOCKET_CLOSED
    ([1;2;3;4; 18; 0;0;2; 0;0;7;0; 9;9;9; 0xAA;0xBB] ++ [0;0;0;0; 8; 0;0;1; 0;0;0;0; 0;0;0; 0xAF; 77]) =
    ([mkpkt AV_MESSAGE_DATA AV_STREAM_TYPE_SUBTITLE 0 7 0 0 0 [0xAA; 0xBB]], EShort).
Proof. vm_compute. reflexivity. Qed.

(** Every payload handed out is a stretch of the received bytes, of the length
    declared in its tag minus the codec prefix; stretches are disjoint and in
    order. *)
Theorem flv_demux_payloads_are_slices :
  forall fill t h s fuel,
    15 <= zlen fill -> zlen fill < 2 ^ 62 -> nonempty_chunks (t_chunks t) ->
    t_stream t = h ++ s -> zlen h = 9 -> take 3 h = [0x46; 0x4C; 0x56] -> bytes s ->
    exists hp ps x r1 segs rest,
      flv_demux fuel (br_new fill t) = (Ok hp, (ps, x, r1)) /\
      s = concat segs ++ rest /\ Forall2 flv_segment segs ps.
Proof.
  intros fill t h s fuel H1 H2 H3 H4 H5 H6 H7.
  destruct (flv_demux_stream fill t h s fuel H1 H2 H3 H4 H5 H6 H7) as (hp & x & r1 & Hd & _).
  destruct (spec_flv_all_segments (zlen fill) (t_err t) fuel s H7) as (segs & rest & Hs & HF).
  exists hp; eexists; exists x, r1, segs, rest. split; [exact Hd|]. split; [exact Hs|exact HF].
Qed.
Print Assumptions flv_demux_payloads_are_slices.

Example flv_demux_payloads_ex :
  flv_segment ([1;2;3;4; 8; 0;0;4; 0;0;7;0; 9;9;9] ++ [0xAF; 1] ++ [0xAA; 0xBB])
    (mkpkt AV_MESSAGE_DATA AV_STREAM_TYPE_AUDIO 1 7 7 0xAF CODEC_AAC [0xAA; 0xBB]).
Proof. do 2 eexists. repeat split. discriminate. Qed.

(** A tag whose body is shorter than its codec prefix makes the demuxer read
    outside its buffer: for every buffer capacity (40 bytes to 16 MiB, so in
    particular the 1 MiB of the code) some input of that length does it. *)
Theorem flv_demux_stays_in_buffer_refuted :
  forall cap e, 40 <= cap < 2 ^ 24 -> forall fill, zlen fill = cap ->
    exists s, bytes s /\ zlen s = cap /\ forall fuel, (2 <= fuel)%nat ->
      exists h ps r, flv_demux fuel (br_new fill (mktr [s] e)) = (Ok h, (ps, UB, r)).
Proof. exact flv_overread. Qed.
Print Assumptions flv_demux_stays_in_buffer_refuted.

(** Before it reports an error on such a tag it looks at bytes it never
    received: the error depends on the uninitialised buffer contents. *)
Theorem flv_demux_ignores_stale_bytes_refuted :
  exists fill1 fill2 t c1 c2 r1 r2, zlen fill1 = zlen fill2 /\
    flv_read_packet (br_new fill1 t) = (Err c1, r1) /\
    flv_read_packet (br_new fill2 t) = (Err c2, r2) /\ c1 <> c2.
Proof.
  exists (repeat 0 40), (repeat 0xAF 40), (mktr [[0;0;0;0;8;0;0;0;0;0;0;0;0;0;0]] ERROR_SOCKET_CLOSED).
  do 4 eexists. split; [reflexivity|]. split; [vm_compute; reflexivity|]. split; [vm_compute; reflexivity|].
  discriminate.
Qed.
Print Assumptions flv_demux_ignores_stale_bytes_refuted.
