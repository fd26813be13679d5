(** Properties C09, C11, C13: packet caches and packet buffers. *)
From Verif Require Import Base M_Packet M_Cache S_Cache L_Cache.

(** C09.  After any history a newcomer gets the last metadata, the last audio
    header, the last video header, then the newest GOP. *)
Theorem gop_cache_content : forall h,
  exists m, newest_gop h m /\
    fst (gop_dump (fold_left gop_put h gop0)) =
      maybe (last_such is_script h) ++ maybe (last_such is_audio_seq h)
      ++ maybe (last_such is_video_seq h) ++ m.
Proof.
  intros h. exists (from_last_key (filter is_media h)). split; [exact (newest_gop_holds h)|].
  rewrite (gop_inv_dump h _ (gop_run_inv h)). reflexivity.
Qed.
Print Assumptions gop_cache_content.

(** The relation [newest_gop] fixes the media part, so C09 leaves no freedom. *)
Theorem newest_gop_determined : forall h m1 m2, newest_gop h m1 -> newest_gop h m2 -> m1 = m2.
Proof. exact newest_gop_unique. Qed.
Print Assumptions newest_gop_determined.

Definition ex_video (flags ty : Z) (d : list Z) := mkpkt 1 AV_STREAM_TYPE_VIDEO ty 0 0 flags CODEC_H264 d.
Definition ex_audio (ty : Z) (d : list Z) := mkpkt 1 AV_STREAM_TYPE_AUDIO ty 0 0 0xaf CODEC_AAC d.
Definition ex_script (d : list Z) := mkpkt 1 AV_STREAM_TYPE_SUBTITLE 0 0 0 0 0 d.
(** An inter frame before any keyframe is not kept; a sequence header (flagged
    as keyframe) does not restart the GOP; the second keyframe does. *)
Example gop_cache_case :
  fst (gop_dump (fold_left gop_put
    [ex_script [1]; ex_video 0x27 1 [2]; ex_video 0x17 0 [3]; ex_video 0x17 1 [4]; ex_audio 0 [5];
     ex_audio 1 [6]; ex_video 0x17 0 [7]; ex_video 0x17 1 [8]; ex_audio 1 [9]; ex_video 0x27 1 [10]] gop0))
  = [ex_script [1]; ex_audio 0 [5]; ex_video 0x17 0 [7]; ex_video 0x17 1 [8]; ex_audio 1 [9]; ex_video 0x27 1 [10]].
Proof. reflexivity. Qed.

(** C11.  The raw TS cache keeps every packet that is not PAT or PMT. *)
Theorem ts_cache_keeps_everything : forall h,
  fst (tsc_dump (fold_left tsc_put h tsc0)) =
    maybe (last_such is_pat h) ++ maybe (last_such (fun p => is_pmt p && negb (is_pat p)) h)
    ++ filter (fun p => negb (is_pat p || is_pmt p)) h.
Proof. intros h. exact (tsc_inv_dump h _ (tsc_run_inv h)). Qed.
Print Assumptions ts_cache_keeps_everything.

(** In particular its size has no bound, however the start indicator bit
    (bit 31 of the packet type) is set. *)
Theorem ts_cache_bounded_refuted : forall bound, exists h,
  (forall p, In p h -> p_stream p = AV_STREAM_PES /\ Z.testbit (p_ptype p) 31 = true) /\
  zlen (t_pbs (fold_left tsc_put h tsc0)) > bound.
Proof.
  intros bound.
  set (p := mkpkt 1 AV_STREAM_PES (2^31) 0 0 0 0 []).
  exists (repeat p (Z.to_nat (bound + 1))). split.
  - intros q Hq. apply repeat_spec in Hq. subst q. split; reflexivity.
  - destruct (tsc_run_inv (repeat p (Z.to_nat (bound + 1)))) as (_ & _ & E). rewrite E.
    assert (F : forall n, zlen (filter (fun p => negb (is_pat p || is_pmt p)) (repeat p n)) = Z.of_nat n).
    { induction n as [|n IH]; [reflexivity|]. cbn [repeat filter].
      change (negb (is_pat p || is_pmt p)) with true. cbn iota. rewrite zlen_cons, IH. lia. }
    rewrite F. lia.
Qed.
Print Assumptions ts_cache_bounded_refuted.

Example ts_cache_case :
  let pat := mkpkt 1 AV_STREAM_PSI 2 0 0 0 0 [1] in
  let pmt := mkpkt 1 AV_STREAM_PSI 3 0 0 0 0 [2] in
  let pes n := mkpkt 1 AV_STREAM_PES (2^31) 0 0 0 0 [n] in
  fst (tsc_dump (fold_left tsc_put [pes 3; pat; pmt; pes 4; pes 5] tsc0)) = [pat; pmt; pes 3; pes 4; pes 5].
Proof. reflexivity. Qed.

(** C13.  Without head room the contents are the appended pieces. *)
Theorem buffer_append_no_headroom : forall init cap ps,
  0 <= cap < 2^32 -> cap <= zlen init -> zlen (concat ps) <= cap ->
  exists b, cb_appends (cb_new init cap 0) ps = Ok b /\ cb_contents b = Ok (concat ps).
Proof.
  intros init cap ps Hc Hi Hp. pose proof (zlen_nonneg (concat ps)).
  destruct (cb_new_appends init cap 0 ps) as (b & E & _ & _ & _ & C); [lia..|].
  exists b. split; [exact E|]. rewrite C. rewrite drop_0 by lia. rewrite take_app_exact by reflexivity. reflexivity.
Qed.
Print Assumptions buffer_append_no_headroom.
Example buffer_append_case :
  cb_appends (cb_new [7;7;7;7;7] 5 0) [[1;2];[];[3;4]] = Ok (mkcb [1;2;3;4;7] 4 0 5).
Proof. reflexivity. Qed.

(** With head room [head] the pieces land [head] bytes too early: readers see
    the contents shifted, ending in [head] uninitialised bytes. *)
Theorem buffer_append_headroom : forall init cap head ps,
  0 <= cap -> 0 <= head -> cap + head < 2^32 -> cap + head <= zlen init -> zlen (concat ps) <= cap ->
  exists b, cb_appends (cb_new init cap head) ps = Ok b /\
    cb_contents b = Ok (take (zlen (concat ps))
      (drop head (concat ps ++ drop (zlen (concat ps)) (take (cap + head) init)))).
Proof.
  intros init cap head ps H1 H2 H3 H4 H5.
  destruct (cb_new_appends init cap head ps H1 H2 H3 H4 H5) as (b & E & _ & _ & _ & C). eauto.
Qed.
Print Assumptions buffer_append_headroom.
Example buffer_append_headroom_case :
  exists b, cb_appends (cb_new [7;7;7;7;7;7] 4 2) [[1;2];[3]] = Ok b /\ cb_contents b = Ok [3;7;7].
Proof. eexists. split; reflexivity. Qed.

(** So with the 20 bytes every media packet reserves, no append of up to 20
    bytes is visible at all. *)
Theorem packet_append_visible_refuted : forall init cap p,
  zlen p <= 20 -> zlen p <= cap -> cap + 20 < 2^32 -> cap + 20 <= zlen init ->
  exists b, cb_append (cb_new init cap 20) p = Ok b /\
    cb_contents b = Ok (take (zlen p) (drop 20 init)).
Proof.
  intros init cap p H1 H2 H3 H4. pose proof (zlen_nonneg p).
  assert (Hc : concat [p] = p) by (cbn; apply app_nil_r).
  destruct (cb_new_appends init cap 20 [p]) as (b & E & _ & _ & _ & C); [rewrite ?Hc; lia..|].
  cbn [cb_appends] in E. exists b. split.
  - destruct (cb_append (cb_new init cap 20) p); cbn in E; congruence.
  - rewrite C, Hc. f_equal. rewrite drop_app_ge by lia. rewrite drop_drop by lia.
    replace (20 - zlen p + zlen p) with 20 by lia.
    transitivity (take (zlen p) (drop 20 (take 20 init ++ take cap (drop 20 init)))).
    + do 2 f_equal. transitivity (take 20 (take (cap + 20) init) ++ drop 20 (take (cap + 20) init)).
      * symmetry. apply take_drop.
      * rewrite take_take. replace (Z.min 20 (cap + 20)) with 20 by lia. f_equal.
        rewrite <- (take_drop 20 init) at 1.
        rewrite take_app_ge by (rewrite zlen_take by lia; lia).
        rewrite zlen_take by lia. replace (Z.min 20 (zlen init)) with 20 by lia.
        rewrite drop_app_exact by (rewrite zlen_take by lia; lia). f_equal. lia.
    + rewrite drop_app_exact by (rewrite zlen_take by lia; lia).
      rewrite take_take. f_equal. lia.
Qed.
Print Assumptions packet_append_visible_refuted.
Example packet_append_case :
  (let? b := cb_append (cb_new (repeat 7 24) 4 20) [1;2;3;4] in cb_contents b) = Ok [7;7;7;7].
Proof. reflexivity. Qed.

(** A full buffer refuses (assert) instead of overflowing. *)
Theorem buffer_append_overflow : forall b p,
  0 <= cb_cap b < 2^32 -> 0 <= cb_len b <= cb_cap b -> cb_cap b < cb_len b + zlen p ->
  cb_append b p = Err ASSERT.
Proof. exact cb_append_full. Qed.
Print Assumptions buffer_append_overflow.
Example buffer_append_overflow_case : cb_append (mkcb [1;2;3] 2 0 3) [8;9] = Err ASSERT.
Proof. reflexivity. Qed.

(** A buffer made from bytes holds exactly those bytes, behind the head room asked for. *)
Theorem buffer_of_bytes : forall init data head,
  0 <= head -> head + zlen data < 2^32 -> head <= zlen init ->
  exists b, cb_of init data head = Ok b /\ cb_contents b = Ok data /\
    cb_remain b = 0 /\ zlen (cb_mem b) = head + zlen data.
Proof.
  intros init data head H1 H2 H3. pose proof (zlen_nonneg data).
  assert (U : u32 (head + zlen data) = head + zlen data) by (apply Z.mod_small; lia).
  assert (R : forall m, cb_remain (mkcb m (zlen data) head (zlen data)) = 0) by (intros m; unfold cb_remain; cbn [cb_cap cb_len]; rewrite Z.sub_diag; reflexivity).
  assert (T : zlen (take head init) = head) by (rewrite zlen_take by lia; lia).
  unfold cb_of. cbv zeta. rewrite U. destruct (head + zlen data =? 0) eqn:E.
  - assert (head = 0 /\ zlen data = 0) as (-> & Hd) by lia. destruct data as [|x data]; [|rewrite zlen_cons in Hd; pose proof (zlen_nonneg data); lia].
    eexists. split; [reflexivity|]. split; [reflexivity|]. split; [apply R|reflexivity].
  - rewrite Z.eqb_refl. eexists. split; [reflexivity|]. split.
    + unfold cb_contents. cbn [cb_mem cb_head cb_len]. unfold slice.
      replace ((0 <=? head) && (0 <=? zlen data) && (head + zlen data <=? zlen (take head init ++ data))) with true by (rewrite zlen_app, T; lia).
      rewrite drop_app_exact by (symmetry; exact T). rewrite take_all by lia. reflexivity.
    + split; [apply R|]. cbn [cb_mem]. rewrite zlen_app, T. reflexivity.
Qed.
Print Assumptions buffer_of_bytes.
Example buffer_of_bytes_case : cb_of [7;7;7;7] [1;2;3] 2 = Ok (mkcb [7;7;1;2;3] 3 2 3) /\ cb_contents (mkcb [7;7;1;2;3] 3 2 3) = Ok [1;2;3].
Proof. split; reflexivity. Qed.

(** Skipping makes bytes visible that are already in the memory, and never past
    the capacity. *)
Theorem buffer_skip_exact : forall b n,
  0 <= cb_cap b < 2^32 -> 0 <= cb_len b <= cb_cap b -> 0 <= n -> 0 <= cb_head b -> zlen (cb_mem b) = cb_head b + cb_cap b ->
  (n <= cb_cap b - cb_len b ->
   exists b' c, cb_skip b n = Ok b' /\ cb_contents b = Ok c /\
     cb_contents b' = Ok (c ++ take n (drop (cb_head b + cb_len b) (cb_mem b))) /\ cb_mem b' = cb_mem b /\ cb_remain b' = cb_remain b - n) /\
  (cb_cap b - cb_len b < n -> cb_skip b n = Err ASSERT).
Proof.
  intros b n Hc Hl Hn Hh Hm. unfold cb_skip, cb_remain. rewrite u32_id by lia. split; intros H.
  - replace (cb_cap b - cb_len b <? n) with false by lia. do 2 eexists. split; [reflexivity|]. unfold cb_contents. cbn [cb_mem cb_len cb_head cb_cap].
    rewrite (u32_id (cb_len b + n)) by lia. rewrite !slice_some by lia. cbn [of_opt]. split; [reflexivity|]. split; [|split; [reflexivity|rewrite u32_id by lia; lia]].
    f_equal. rewrite (Z.add_comm (cb_head b) (cb_len b)), <- (drop_drop (cb_len b) (cb_head b)) by lia.
    set (l := drop (cb_head b) (cb_mem b)). rewrite <- (take_drop (cb_len b) l) at 1.
    assert (zlen l = cb_cap b) by (unfold l; rewrite zlen_drop; lia).
    rewrite take_app_ge by (rewrite zlen_take by lia; lia). rewrite zlen_take by lia. f_equal. f_equal. lia.
  - replace (cb_cap b - cb_len b <? n) with true by lia. reflexivity.
Qed.
Print Assumptions buffer_skip_exact.
Example buffer_skip_case :
  (let? b := cb_skip (mkcb [1;2;3;4;5] 2 0 5) 2 in cb_contents b) = Ok [1;2;3;4] /\ cb_skip (mkcb [1;2;3;4;5] 2 0 5) 4 = Err ASSERT.
Proof. split; reflexivity. Qed.
