(** Properties C221, C222: the times of pictures that came as a transport stream
    or over RTP. *)
From Verif Require Import Base M_IO S_IO L_IO M_Packet M_Flv S_Flv L_Flv P_Flv M_H264 M_AAC S_Codec P_Codec S_Fields M_Ts S_Ts L_Ts L_Ts3 L_TsEx P_Ts M_Rtp S_Rtp L_Rtp L_Rtp2 P_Rtp S_Cross L_Cross.

(** ** C221: the clock of a transport stream starts again after 26.5 hours *)
(** What 33 bits of a 90 kHz clock leave of the time [T], in milliseconds. *)
Definition shown_ms (T : Z) : Z := (T mod 2 ^ 33) / 90.

Lemma avc_times dts pts d out : 0 <= dts -> 0 <= pts -> bytes d -> zlen d < 65536 ->
  h264_encode_avc (mkav dts pts 90) (-1) d = Ok out -> forall q, In q out -> p_ptype q = 1 -> p_dts q = dts / 90 /\ p_pts q = pts / 90.
Proof.
  intros Hd Hp Hb Hl H. unfold h264_encode_avc in H.
  pose proof (annexb_split_total d Hb ltac:(lia)) as T. destruct (h264_decode d) as [ns|e| |]; try discriminate. cbn [bind] in H.
  assert (N : Forall (fun n => bytes (n_buf n)) ns).
  { destruct T as [(_ & ->)|(_ & lead & _ & E & _)]; [constructor|]. subst d. clear - Hb.
    apply bytes_app in Hb as [_ Hb]. induction ns as [|n ns IH]; [constructor|]. cbn [flat_map] in Hb. unfold unit_bytes at 1 in Hb.
    apply bytes_app in Hb as [Hb1 Hb2]. apply bytes_app in Hb1 as [_ Hb1]. constructor; [exact Hb1|apply IH; exact Hb2]. }
  rewrite avc_conversion_exact in H; [|cbn; lia|left; reflexivity|exact N].
  assert (E : out = avc_packets (mkav dts pts 90) ns).
  { destruct (last_of is_sps ns); [destruct (_ <? 4); [discriminate|]|]; injection H as <-; reflexivity. }
  subst out. intros q Hq Hty. unfold avc_packets in Hq. apply in_app_or in Hq as [Hq|Hq].
  { destruct (last_of is_sps ns); [|destruct Hq]. destruct Hq as [<-|[]]. discriminate Hty. }
  apply in_flat_map in Hq as (n & _ & Hq). unfold media_pkt in Hq. cbn [av_dts av_pts av_tb] in Hq.
  rewrite !Z.quot_div_nonneg in Hq by lia.
  destruct (n_type n =? 5); [|destruct (n_type n =? 1); [|destruct (n_type n =? 6); [|destruct Hq]]];
    (destruct Hq as [<-|[]]; split; reflexivity).
Qed.

(** The pictures of a stream of units at the times [clocks], each to be shown
    [c] later, are queued with the times modulo 2^33 ticks. *)
Theorem ts_clock_wraps :
  forall mem s pid p ts z outs clocks c, mem_ok mem ->
    s_progs s pid = Some (PPes p) -> ps_type p = TS_STREAM_H264 -> ps_buf p = None ->
    Forall (tu_ok pid) (ts ++ [z]) ->
    Forall (fun t => pu_len (tu_pes t) = 0 /\ bytes (tu_data t) /\ zlen (tu_data t) < 65536) (ts ++ [z]) ->
    Forall2 (fun t out => h264_encode_avc (mkav (pu_dts (tu_pes t)) (pu_pts (tu_pes t)) 90) (-1) (tu_data t) = Ok out) ts outs ->
    Forall2 (fun t T => pu_dts (tu_pes t) = T mod 2 ^ 33 /\ pu_pts (tu_pes t) = (T + c) mod 2 ^ 33) ts clocks ->
    consecutive (ps_cc p) (map t_cc (flat_map tu_packets (ts ++ [z]))) ->
    exists s' o, ts_run mem s (map ts_bytes (flat_map tu_packets (ts ++ [z]))) = (s', o, Ok tt) /\
      s_queue s' = s_queue s ++ concat outs /\
      Forall2 (fun T out => forall q, In q out -> p_ptype q = 1 -> p_dts q = shown_ms T /\ p_pts q = shown_ms (T + c)) clocks outs.
Proof.
  intros mem s pid p ts z outs clocks c Hm Ep Ht Hb Hok Hsz Hout Hck Hcc.
  destruct (ts_h264_stream_delivered mem s pid p ts z outs Hm Ep Ht Hb Hok) as (s' & o & E & Q & _); try assumption.
  { eapply Forall_impl; [|exact Hsz]. cbn. tauto. }
  exists s', o. split; [exact E|]. split; [exact Q|].
  apply Forall_app in Hsz as [Hsz _]. clear - Hsz Hout Hck. revert clocks Hck.
  induction Hout as [|t out ts outs H Hout IH]; intros clocks Hck; inversion Hck as [|? T ? cl [E1 E2] Hck']; subst; [constructor|].
  inversion Hsz as [|? ? (_ & B & L) Hsz']; subst. constructor; [|apply IH; assumption].
  rewrite E1, E2 in H. unfold shown_ms. apply avc_times with (1 := proj1 (Z.mod_pos_bound T (2 ^ 33) eq_refl))
    (2 := proj1 (Z.mod_pos_bound (T + c) (2 ^ 33) eq_refl)) (3 := B) (4 := L) (5 := H).
Qed.
Print Assumptions ts_clock_wraps.

(** Within a period of 2^33 ticks the shown times follow the clock, to the
    millisecond; from one period to the next they fall, whatever the time
    between the pictures up to a millisecond less than a period. *)
Theorem shown_follows_then_falls :
  forall T1 T2, T1 <= T2 ->
    (T1 / 2 ^ 33 = T2 / 2 ^ 33 -> shown_ms T1 <= shown_ms T2 /\ (T2 - T1) / 90 <= shown_ms T2 - shown_ms T1 <= (T2 - T1) / 90 + 1) /\
    (T2 / 2 ^ 33 = T1 / 2 ^ 33 + 1 -> T2 - T1 <= 2 ^ 33 - 90 -> shown_ms T2 < shown_ms T1).
Proof.
  intros T1 T2 H. unfold shown_ms. pose proof (Z_div_mod_eq_full T1 (2 ^ 33)) as A1. pose proof (Z_div_mod_eq_full T2 (2 ^ 33)) as A2.
  pose proof (Z.mod_pos_bound T1 (2 ^ 33) eq_refl) as B1. pose proof (Z.mod_pos_bound T2 (2 ^ 33) eq_refl) as B2.
  set (a1 := T1 mod 2 ^ 33) in *. set (a2 := T2 mod 2 ^ 33) in *.
  pose proof (Z_div_mod_eq_full a1 90). pose proof (Z_div_mod_eq_full a2 90). pose proof (Z_div_mod_eq_full (T2 - T1) 90).
  pose proof (Z.mod_pos_bound a1 90 eq_refl). pose proof (Z.mod_pos_bound a2 90 eq_refl). pose proof (Z.mod_pos_bound (T2 - T1) 90 eq_refl).
  set (q1 := T1 / 2 ^ 33) in *. set (q2 := T2 / 2 ^ 33) in *.
  set (m1 := a1 / 90) in *. set (m2 := a2 / 90) in *. set (m3 := (T2 - T1) / 90) in *.
  split; intros E; [rewrite E in A1|intros L; rewrite E in A2]; lia.
Qed.
Print Assumptions shown_follows_then_falls.

(** A picture shown some time (up to 1000 s) after it is decoded: a player of
    the FLV stream shows it at that time unless the period ends in between;
    then it shows it more than 86 minutes late. *)
Theorem offset_at_the_wrap :
  forall T c flags d, flags = 0x17 \/ flags = 0x27 -> 0 <= c <= 90000000 ->
    let q := video_pkt 1 (shown_ms T) (shown_ms (T + c)) flags d in
    (T mod 2 ^ 33 + c < 2 ^ 33 -> p_pts (as_flv q) = shown_ms (T + c) /\ c / 90 <= p_pts (as_flv q) - p_dts (as_flv q) <= c / 90 + 1) /\
    (2 ^ 33 <= T mod 2 ^ 33 + c -> 86 * 60000 + c / 90 < p_pts (as_flv q) - p_dts (as_flv q)).
Proof.
  intros T c flags d Hf Hc q.
  assert (A : as_flv q = video_pkt 1 (shown_ms T) (shown_ms T + flv_sign24 ((shown_ms (T + c) - shown_ms T) mod 2 ^ 24)) flags d).
  { destruct Hf as [-> | ->]; reflexivity. }
  rewrite A. unfold video_pkt; cbn [p_dts p_pts]. clear A q d.
  pose proof (Z.mod_pos_bound T (2 ^ 33) eq_refl) as B. unfold shown_ms. rewrite <- (Z.add_mod_idemp_l T c) by lia.
  set (a := T mod 2 ^ 33) in *. pose proof (Z_div_mod_eq_full a 90). pose proof (Z.mod_pos_bound a 90 eq_refl).
  pose proof (Z_div_mod_eq_full c 90). pose proof (Z.mod_pos_bound c 90 eq_refl). split; intros W.
  - rewrite (Z.mod_small (a + c) (2 ^ 33)) by lia. pose proof (Z_div_mod_eq_full (a + c) 90). pose proof (Z.mod_pos_bound (a + c) 90 eq_refl).
    set (m := a / 90) in *. set (n := (a + c) / 90) in *. set (k := c / 90) in *.
    rewrite Z.mod_small by lia. unfold flv_sign24. destruct (Z.ltb_spec (n - m) (2 ^ 23)); lia.
  - replace ((a + c) mod 2 ^ 33) with (a + c - 2 ^ 33) by (apply (Z.mod_unique _ _ 1); lia).
    pose proof (Z_div_mod_eq_full (a + c - 2 ^ 33) 90). pose proof (Z.mod_pos_bound (a + c - 2 ^ 33) 90 eq_refl).
    set (m := a / 90) in *. set (n := (a + c - 2 ^ 33) / 90) in *. set (k := c / 90) in *.
    assert (R : k - 95443718 <= n - m <= k - 95443716) by lia.
    replace ((n - m) mod 2 ^ 24) with (n - m + 6 * 2 ^ 24) by (apply (Z.mod_unique _ _ (-6)); lia).
    unfold flv_sign24. destruct (Z.ltb_spec (n - m + 6 * 2 ^ 24) (2 ^ 23)); lia.
Qed.
Print Assumptions offset_at_the_wrap.

(** Pictures 40 ms apart, each shown 80 ms after decoding, around the end of a
    period: the third is decoded before it and shown after it. *)
Example clock_wraps_case :
  let Ts := [2 ^ 33 - 14400; 2 ^ 33 - 10800; 2 ^ 33 - 3600; 2 ^ 33] in
  map shown_ms Ts = [95443557; 95443597; 95443677; 0] /\
  map (fun T => let q := as_flv (video_pkt 1 (shown_ms T) (shown_ms (T + 7200)) 0x27 [1]) in p_pts q - p_dts q) Ts = [80; 80; 5219659; 80] /\
  map (fun T => T / 2 ^ 33) Ts = [0; 0; 0; 1].
Proof. repeat split; vm_compute; reflexivity. Qed.
(** The stream of [ts_h264_stream_case] meets the hypotheses. *)
Example ts_clock_wraps_case :
  exists out s' o, h264_encode_avc (mkav 0 0 90) (-1) ex_nal = Ok out /\ map p_dts out = [shown_ms (2 ^ 33)] /\
    ts_run ex_mem ex_state (map ts_bytes (flat_map tu_packets [ex_tu 0 0; ex_tu 0 2])) = (s', o, Ok tt) /\ s_queue s' = out.
Proof.
  eexists. destruct (ts_clock_wraps ex_mem ex_state 256 (pes_new TS_STREAM_H264) [ex_tu 0 0] (ex_tu 0 2)
    [match h264_encode_avc (mkav 0 0 90) (-1) ex_nal with Ok out => out | _ => [] end] [2 ^ 33] 0 ex_mem_ok) as (s' & o & E & Q & _);
    try reflexivity.
  - constructor; [exact ex_tu_ok0|constructor; [exact ex_tu_ok2|constructor]].
  - repeat (constructor; [split; [reflexivity|split; [apply bytesb_spec; vm_compute; reflexivity|vm_compute; reflexivity]]|]). constructor.
  - constructor; [vm_compute; reflexivity|constructor].
  - constructor; [split; vm_compute; reflexivity|constructor].
  - cbn. repeat split.
  - exists s', o. split; [vm_compute; reflexivity|]. split; [reflexivity|]. split; [exact E|]. rewrite Q. vm_compute. reflexivity.
Qed.

(** ** C222: pictures that came over RTP *)
(** A datagram that is one slice, at a time of the clock of the server (in ms
    since 1970; any time after 20 hours of 1970). *)
Definition slice_event (e : event) : Prop :=
  2 ^ 26 <= fst (fst e) /\
  exists h body, snd e = h :: body /\ 0 <= h < 128 /\ (h mod 32 = 1 \/ h mod 32 = 5) /\ zlen body < 100000.
(** What an FLV player is told of it: the slice; as time of decoding, the time
    the server got it; and an offset to the time of presentation that is the
    distance from the server's clock to the sender's up to multiples of 2^24 ms
    - but never this distance. *)
Definition slice_shown (e : event) (q : pkt) : Prop :=
  let now := fst (fst e) in let real := pk_ts (snd (fst e)) / 90 - now in
  p_data q = be 4 (zlen (snd e)) ++ snd e /\ p_dts q = now mod 2 ^ 32 /\
  - 2 ^ 23 <= p_pts q - p_dts q < 2 ^ 23 /\ (exists m, m <> 0 /\ p_pts q - p_dts q = real + m * 2 ^ 24).

Lemma slice_result now ts h body : 0 <= now -> 0 <= ts -> 0 <= h < 128 -> h mod 32 = 1 \/ h mod 32 = 5 ->
  exists f, (f = 0x17 \/ f = 0x27) /\ nal_result now ts (h :: body) = Ok [video_pkt 1 now (ts / 90) f (be 4 (zlen (h :: body)) ++ h :: body)].
Proof.
  intros H1 H2 Hh Ht. unfold nal_result. destruct (Z.leb_spec 128 h); [lia|].
  replace (h mod 32 =? 7) with false by (symmetry; apply Z.eqb_neq; lia). cbn [andb].
  unfold avc_packets, last_of. cbn [List.rev app find]. unfold is_sps, is_pps, H264_NAL_SPS, H264_NAL_PPS, nal_of. cbn [n_type nth].
  replace (h mod 32 =? 7) with false by (symmetry; apply Z.eqb_neq; lia).
  cbn [flat_map]. unfold media_pkt. cbn [n_type n_buf av_dts av_pts av_tb].
  rewrite !Z.quot_div_nonneg by lia. rewrite Z.div_mul by lia.
  destruct Ht as [-> | ->]; cbn [Z.eqb app]; eexists; (split; [|reflexivity]); auto.
Qed.
Lemma tag_mod D P f d : f = 0x17 \/ f = 0x27 ->
  flv_tag (video_pkt 1 D P f d) = flv_tag (video_pkt 1 (D mod 2 ^ 32) (D mod 2 ^ 32 + (P - D)) f d).
Proof.
  intros Hf.
  assert (B0 : forall a b, flv_body (video_pkt 1 a b f d) = [f; 1] ++ be 3 (b - a) ++ d) by (intros; destruct Hf as [->| ->]; reflexivity).
  unfold flv_tag. rewrite !B0. replace (D mod 2 ^ 32 + (P - D) - D mod 2 ^ 32) with (P - D) by lia.
  change (p_dts (video_pkt 1 D P f d)) with D. change (p_dts (video_pkt 1 (D mod 2 ^ 32) (D mod 2 ^ 32 + (P - D)) f d)) with (D mod 2 ^ 32).
  change (flv_type_byte (video_pkt 1 D P f d)) with 9. change (flv_type_byte (video_pkt 1 (D mod 2 ^ 32) (D mod 2 ^ 32 + (P - D)) f d)) with 9.
  assert (E1 : be 3 (D mod 2 ^ 32) = be 3 D).
  { rewrite <- (be3_mod (D mod 2 ^ 32)), <- (be3_mod D). f_equal. change (2 ^ 32) with (2 ^ 24 * 2 ^ 8).
    rewrite Z.rem_mul_r by lia. rewrite Z.mul_comm, Z.mod_add, Z.mod_mod by lia. reflexivity. }
  assert (E2 : be 1 (D mod 2 ^ 32 / 2 ^ 24) = be 1 (D / 2 ^ 24)).
  { rewrite <- (be_mod 1 (D mod 2 ^ 32 / 2 ^ 24)), <- (be_mod 1 (D / 2 ^ 24)). f_equal. change (2 ^ 32) with (2 ^ 24 * 2 ^ 8).
    rewrite Z.rem_mul_r by lia. rewrite Z.mul_comm, Z.div_add, Z.div_small, Z.add_0_l by (try lia; apply Z.mod_pos_bound; lia).
    rewrite Z.mod_mod by lia. reflexivity. }
  rewrite E1, E2. reflexivity.
Qed.
Lemma layout_same ps qs : Forall2 (fun p q => flv_tag p = flv_tag q) ps qs -> forall prev, flv_layout prev ps = flv_layout prev qs.
Proof. induction 1 as [|p q ps qs E _ IH]; intros prev; cbn [flv_layout]; [reflexivity|]. rewrite E, IH. reflexivity. Qed.

Theorem rtp_pictures_in_flv :
  forall mem es fill, 1 <= zlen mem < 2 ^ 32 -> 2 ^ 18 <= zlen fill < 2 ^ 24 ->
    Forall event_ok es -> Forall slice_event es ->
    exists ps s1 m out,
      h264_rtp_run mem None (map dgram es) = (None, map (fun p => ([p], Ok tt)) ps) /\
      flv_write_header None (mksink [] []) = (Ok tt, s1) /\
      flv_write_all flvmux0 ps s1 = (Ok tt, m, mksink [] out) /\
      forall t, nonempty_chunks (t_chunks t) -> t_stream t = out ->
        exists hp qs r1, flv_demux (S (length es)) (br_new fill t) = (Ok hp, (qs, Err (t_err t), r1)) /\ Forall2 slice_shown es qs.
Proof.
  intros mem es fill Hm Hf He Hs.
  assert (K : exists ps qs, spec_run (zlen mem) None es = (None, map (fun p => ([p], Ok tt)) ps) /\
    Forall2 (fun p q => flv_tag p = flv_tag q) ps qs /\ Forall (fun p => flv_known p = true /\ zlen (flv_body p) < 2 ^ 24) ps /\ Forall (flv_transportable (2 ^ 18)) qs /\ Forall2 slice_shown es qs).
  { clear Hf Hm. induction es as [|e es IH]; [exists [], []; repeat split; constructor|].
    inversion He as [|? ? He1 He2]; subst. inversion Hs as [|? ? Hs1 Hs2]; subst. destruct (IH He2 Hs2) as (ps & qs & E & T1 & T2 & T3 & T4). clear IH.
    destruct e as [[now k] u]. destruct Hs1 as (Hnow & h & body & Eu & Hh & Ht & Hl). cbn [fst snd] in Hnow, Eu. subst u.
    destruct He1 as (Hk & Hb & _). cbn [fst snd] in Hk, Hb.
    assert (Hts : 0 <= pk_ts k < 2 ^ 32) by (destruct Hk as ((Hk & _) & _); unfold fields_fit, pk_fields in Hk; cbn [forallb fst snd] in Hk; lia).
    destruct (slice_result now (pk_ts k) h body ltac:(lia) ltac:(lia) Hh Ht) as (f & Hff & R).
    set (d := be 4 (zlen (h :: body)) ++ h :: body) in *. set (D := now mod 2 ^ 32).
    assert (HD : 0 <= D < 2 ^ 32) by (apply Z.mod_pos_bound; lia).
    set (P := D + (pk_ts k / 90 - now)).
    assert (Bd : bytes d) by (apply be4_bytes; exact Hb).
    assert (Ld : zlen d = 5 + zlen body) by (unfold d; rewrite zlen_app, zlen_be, zlen_cons; lia).
    pose proof (zlen_nonneg body).
    assert (Nd : d <> []) by (intros X; rewrite X in Ld; change (zlen []) with 0 in Ld; lia).
    destruct (slice_as_flv D P f d Hff HD Bd Nd ltac:(lia)) as (S1 & S2 & S3).
    exists (video_pkt 1 now (pk_ts k / 90) f d :: ps), (as_flv (video_pkt 1 D P f d) :: qs).
    split; [|split; [|split; [|split]]].
    - cbn [spec_run fst snd map].
      assert (X : payload_spec (zlen mem) now (pk_ts k) None (h :: body) = (None, ([video_pkt 1 now (pk_ts k / 90) f d], Ok tt))).
      { unfold payload_spec. replace ((0 <? h mod 32) && (h mod 32 <? 24)) with true by (destruct Ht as [-> | ->]; reflexivity).
        unfold of_unit. rewrite R. reflexivity. }
      rewrite X, E. reflexivity.
    - constructor; [|exact T1]. rewrite <- S2. apply tag_mod. exact Hff.
    - constructor; [|exact T2]. destruct S3 as [S3 S4]. split; [reflexivity|].
      replace (zlen (flv_body (video_pkt 1 now (pk_ts k / 90) f d))) with (zlen (flv_body (video_pkt 1 D P f d))); [exact S4|].
      assert (B0 : forall a b, flv_body (video_pkt 1 a b f d) = [f; 1] ++ be 3 (b - a) ++ d) by (intros; destruct Hff as [->| ->]; reflexivity).
      rewrite !B0, !zlen_app, !zlen_be. reflexivity.
    - constructor; assumption.
    - constructor; [|exact T4].
      assert (A : as_flv (video_pkt 1 D P f d) = video_pkt 1 D (D + flv_sign24 ((P - D) mod 2 ^ 24)) f d) by (destruct Hff as [-> | ->]; reflexivity).
      rewrite A. unfold slice_shown. cbn [fst snd]. unfold video_pkt; cbn [p_data p_dts p_pts].
      split; [reflexivity|]. split; [reflexivity|].
      replace (D + flv_sign24 ((P - D) mod 2 ^ 24) - D) with (flv_sign24 ((P - D) mod 2 ^ 24)) by lia.
      pose proof (sign24_range (P - D)) as Rg. split; [exact Rg|].
      replace (P - D) with (pk_ts k / 90 - now) in * by (unfold P; lia). set (r := pk_ts k / 90 - now) in *.
      assert (Hr : r < - 2 ^ 23).
      { assert (pk_ts k / 90 < 2 ^ 26 - 2 ^ 23) by (apply Z.div_lt_upper_bound; lia). unfold r. lia. }
      pose proof (Z_div_mod_eq_full r (2 ^ 24)) as Q. unfold flv_sign24 in *. destruct (r mod 2 ^ 24 <? 2 ^ 23).
      + exists (- (r / 2 ^ 24)). split; lia.
      + exists (- (r / 2 ^ 24) - 1). split; lia. }
  destruct K as (ps & qs & E & T1 & T2 & T3 & T4).
  destruct (run_ok mem es None None I Hm He) as (st' & E' & Hst). rewrite E in E', Hst. cbn [fst snd] in E', Hst. apply strep_none in Hst. subst st'.
  destruct (flv_write_all_ok ps flvmux0 flv_default_header T2) as [pv Hv].
  exists ps. eexists. eexists. eexists. split; [exact E'|]. split; [reflexivity|]. split; [exact Hv|].
  intros t Hn Ht.
  assert (T3' : Forall (flv_transportable (zlen fill)) qs).
  { eapply Forall_impl; [|exact T3]. intros p (H1 & H2 & H3 & H4). split; [exact H1|]. split; [exact H2|]. split; [lia|exact H4]. }
  destruct (flv_mux_demux_roundtrip fill qs ltac:(lia) T3') as (s2 & m2 & out2 & W1 & W2 & W3).
  assert (Eo : out2 = t_stream t).
  { cbn [flv_write_header sk_write sk_oracle sk_out] in W1. injection W1 as <-.
    destruct (flv_write_all_ok qs flvmux0 flv_default_header) as [pv2 Hv2].
    { eapply Forall_impl; [|exact T3]. intros p (H1 & H2 & H3 & H4 & H5 & H6). split; [|lia].
      unfold flv_known. destruct H6 as [(-> & _)|[(-> & _)|[(-> & _)|(-> & _)]]]; reflexivity. }
    cbn [app] in W2. rewrite Hv2 in W2. injection W2 as _ <-. rewrite Ht. f_equal.
    assert (F : forall l, filter (flv_kept flvmux0) l = l).
    { induction l as [|x l IHl]; [reflexivity|]. cbn [filter]. unfold flv_kept at 1. cbn. rewrite !Bool.andb_false_r, IHl. reflexivity. }
    rewrite !F, (layout_same _ _ T1). reflexivity. }
  destruct (W3 t Hn (eq_sym Eo)) as (hp & r1 & Ed). exists hp, qs, r1. split; [|exact T4].
  replace (length es) with (length qs); [exact Ed|]. clear - T4. induction T4; cbn [length]; congruence.
Qed.
Print Assumptions rtp_pictures_in_flv.
(** A slice of 26 September 2026, RTP timestamp 90000 (one second): to be
    shown 43 minutes before it is decoded. *)
Example rtp_pictures_case :
  let e := (1790400000000, mkpk 2 0 1 96 7 90000 5 [] None, [0x65; 1; 2]) : event in
  event_ok e /\ slice_event e /\
  exists q, map fst (snd (h264_rtp_run (repeat 0 16) None [dgram e])) = [[q]] /\ p_dts q = 1790400000000 /\ p_pts q = 1000 /\
    slice_shown e (video_pkt 1 (1790400000000 mod 2 ^ 32) (1790400000000 mod 2 ^ 32 + flv_sign24 ((1000 - 1790400000000) mod 2 ^ 24)) 0x17 (be 4 3 ++ [0x65; 1; 2])) /\
    flv_sign24 ((1000 - 1790400000000) mod 2 ^ 24) = - 2616344.
Proof.
  cbv zeta. split; [|split].
  - split; [|split; [apply bytesb_spec; reflexivity|vm_compute; reflexivity]].
    split; [split; [reflexivity|split; [constructor|exact I]]|split; [cbn; lia|exact I]].
  - split; [cbn; lia|]. exists 0x65, [1; 2]. split; [reflexivity|]. split; [lia|]. split; [right; reflexivity|]. vm_compute. reflexivity.
  - eexists. split; [vm_compute; reflexivity|]. split; [vm_compute; reflexivity|]. split; [vm_compute; reflexivity|].
    split; [|vm_compute; reflexivity]. unfold slice_shown. cbn [fst snd].
    split; [vm_compute; reflexivity|]. split; [vm_compute; reflexivity|].
    split; [vm_compute; split; [discriminate|reflexivity]|].
    exists 106716. split; [discriminate|vm_compute; reflexivity].
Qed.
