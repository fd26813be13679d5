(** Lemmas for P_Rtmp: demuxer and muxer. *)
From Verif Require Import Base M_IO S_IO L_IO M_Packet M_Flv S_Flv L_Flv M_Rtmp S_Rtmp.

Definition rdr (l : list Z) (i : Z) : breader := mkbr (mkab l i (zlen l) true) None.

Lemma u64_small x : 0 <= x < 2 ^ 62 -> u64 x = x.
Proof. intros H; unfold u64; apply Z.mod_small; lia. Qed.

Lemma rm_acq l i n : 0 <= i -> zlen l < 2 ^ 62 -> n <= zlen l - i -> 0 <= n ->
  macquire n (rdr l i) = (Ok tt, rdr l i).
Proof.
  intros H1 H2 H3 H4. unfold macquire, acquire, rdr, ab_size. cbn [br_buf ab_end ab_ptr].
  rewrite u64_small by lia. destruct (n <=? zlen l - i) eqn:E; [reflexivity|lia].
Qed.
Lemma rm_fin l i size st ty dts pts fl co : 0 <= i <= zlen l -> zlen l < 2 ^ 62 -> size = zlen l - i ->
  fst (rm_finish st ty dts pts fl co size (rdr l i)) = Ok (mkpkt AV_MESSAGE_DATA st ty dts pts fl co (drop i l)).
Proof.
  intros H1 H2 ->. unfold rm_finish, rdr, ab_size. cbn [br_buf ab_end ab_ptr].
  rewrite Z.eqb_refl. cbn [negb]. unfold rdbytes. cbn [br_buf ab_end ab_ptr ab_data].
  rewrite slice_some by lia. cbn. rewrite take_all; [reflexivity|]. rewrite zlen_drop by lia. lia.
Qed.

Lemma has_body_cons x l t s i c : rm_has_body (mkrm t s i c (x :: l)) = true.
Proof.
  unfold rm_has_body. cbn [rm_body]. rewrite zlen_cons. pose proof (zlen_nonneg l).
  destruct (1 + zlen l =? 0) eqn:E; [lia|reflexivity].
Qed.

Definition out_res (o : rtmp_out) : option (res pkt) :=
  match o with RSkip => None | RPacket p => Some (Ok p) | RErr c => Some (Err c) | ROver => Some UB end.

Ltac zl := rewrite ?zlen_cons, ?zlen_nil in *.
Lemma mb_ok {A B} (m : rdm A) (f : A -> rdm B) r a r1 : m r = (Ok a, r1) -> mbind m f r = f a r1.
Proof. intros H. unfold mbind. now rewrite H. Qed.
Lemma mb_err {A B} (m : rdm A) (f : A -> rdm B) r c r1 : m r = (Err c, r1) -> mbind m f r = (Err c, r1).
Proof. intros H. unfold mbind. now rewrite H. Qed.
Lemma mb_ub {A B} (m : rdm A) (f : A -> rdm B) r r1 : m r = (UB, r1) -> mbind m f r = (UB, r1).
Proof. intros H. unfold mbind. now rewrite H. Qed.

Lemma rdr_rd8 l i x : 0 <= i -> nthz l i = Some x -> lift rd8 (rdr l i) = (Ok x, rdr l (i + 1)).
Proof. intros Hi H. unfold lift, rd8, rdr. cbn [br_buf ab_data ab_ptr]. rewrite H. reflexivity. Qed.
Lemma rdr_rd24 l i a b c : 0 <= i -> byte a -> byte b -> byte c -> nthz l i = Some a -> nthz l (i+1) = Some b ->
  nthz l (i+2) = Some c -> lift rd24 (rdr l i) = (Ok (bev [a; b; c]), rdr l (i + 3)).
Proof.
  intros Hi Ha Hb Hc H1 H2 H3. unfold lift, rd24, rd16, rd8, rdr. cbn [br_buf ab_data ab_ptr]. rewrite H1.
  cbn [bind snd br_buf ab_data ab_ptr ab_skip]. rewrite H2.
  cbn [bind snd fst br_buf ab_data ab_ptr ab_skip]. replace (i + 1 + 1) with (i + 2) by lia. rewrite H3.
  cbn [bind snd fst br_buf br_io ab_data ab_ptr ab_skip ab_end ab_rw].
  unfold byte in *. f_equal.
  { f_equal. rewrite (shiftl_mul b 8), (shiftl_mul a 16), (lor_add b c 8) by lia.
    replace (u16 (b * 2 ^ 8 + c)) with (b * 2 ^ 8 + c) by (unfold u16; rewrite Z.mod_small; lia).
    rewrite lor_add by lia. unfold u32; rewrite Z.mod_small by lia. unfold bev; cbn [fold_left]; lia. }
  unfold ab_skip; cbn [ab_data ab_ptr ab_end ab_rw]. do 2 f_equal. lia.
Qed.

Lemma video_ok t s i c body : t = RT_VIDEO -> bytes body -> zlen body < 2 ^ 32 ->
  rtmp_demux_msg (mkrm t s i c body) = out_res (spec_rtmp_video s body).
Proof.
  intros -> Hb Hl. destruct body as [|flag b].
  { reflexivity. }
  unfold rtmp_demux_msg. unfold rm_video at 1. rewrite has_body_cons. cbn [rm_type].
  change (RT_VIDEO =? RT_VIDEO) with true. cbn [andb rm_body rm_ts].
  change (rm_reader _) with (rdr (flag :: b) 0).
  apply bytes_cons in Hb as [Hf Hb]. pose proof (zlen_nonneg b) as Hnb. rewrite zlen_cons in Hl.
  rewrite (mb_ok _ _ _ tt (rdr (flag :: b) 0)) by (apply rm_acq; zl; lia).
  rewrite (mb_ok _ _ _ flag (rdr (flag :: b) 1)) by (apply (rdr_rd8 _ 0); [lia|reflexivity]).
  rewrite land_0f. unfold spec_rtmp_video.
  destruct (negb (flag mod 16 =? CODEC_H264) && negb (flag mod 16 =? CODEC_H265)) eqn:Ec.
  { reflexivity. }
  rewrite land_f0_50 by assumption.
  destruct (flag / 16 =? 5) eqn:E5; cbn [negb].
  { rewrite rm_fin by (zl; lia). reflexivity. }
  destruct b as [|ty [|c0 [|c1 [|c2 d]]]]; try reflexivity.
  pose proof (zlen_nonneg d) as Hnd. zl.
  rewrite (mb_ok _ _ _ tt (rdr (flag :: ty :: c0 :: c1 :: c2 :: d) 1)) by (apply rm_acq; zl; lia).
  rewrite (mb_ok _ _ _ ty (rdr (flag :: ty :: c0 :: c1 :: c2 :: d) 2)) by (apply (rdr_rd8 _ 1); [lia|reflexivity]).
  apply bytes_cons in Hb as [Hty Hb]. apply bytes_cons in Hb as [Hc0 Hb]. apply bytes_cons in Hb as [Hc1 Hb].
  apply bytes_cons in Hb as [Hc2 Hb].
  rewrite (mb_ok _ _ _ (bev [c0; c1; c2]) (rdr (flag :: ty :: c0 :: c1 :: c2 :: d) 5))
    by (apply (rdr_rd24 _ 2); auto; [lia]).
  rewrite rm_fin by (zl; lia). rewrite flv_cts_sign. 2:{ pose proof (bev_range [c0; c1; c2]) as R.
    change (256 ^ zlen [c0; c1; c2]) with (2 ^ 24) in R. apply R. repeat (constructor; auto). }
  reflexivity.
Qed.

Lemma audio_ok t s i c body : t = RT_AUDIO -> bytes body -> zlen body < 2 ^ 32 ->
  rtmp_demux_msg (mkrm t s i c body) = out_res (spec_rtmp_audio s body).
Proof.
  intros -> Hb Hl. destruct body as [|flag b].
  { reflexivity. }
  unfold rtmp_demux_msg. unfold rm_video, rm_audio. rewrite has_body_cons. cbn [rm_type].
  change (RT_AUDIO =? RT_VIDEO) with false. change (RT_AUDIO =? RT_AUDIO) with true. cbn [andb rm_body rm_ts].
  change (rm_reader _) with (rdr (flag :: b) 0).
  apply bytes_cons in Hb as [Hf Hb]. pose proof (zlen_nonneg b) as Hnb. rewrite zlen_cons in Hl.
  rewrite (mb_ok _ _ _ tt (rdr (flag :: b) 0)) by (apply rm_acq; zl; lia).
  rewrite (mb_ok _ _ _ flag (rdr (flag :: b) 1)) by (apply (rdr_rd8 _ 0); [lia|reflexivity]).
  rewrite shiftr_f0 by assumption. unfold spec_rtmp_audio.
  destruct (flag / 16 =? CODEC_AAC) eqn:Ec; cbn [negb]; [|reflexivity].
  destruct b as [|ty d]; [reflexivity|]. pose proof (zlen_nonneg d) as Hnd. zl.
  rewrite (mb_ok _ _ _ ty (rdr (flag :: ty :: d) 2)) by (apply (rdr_rd8 _ 1); [lia|reflexivity]).
  rewrite rm_fin by (zl; lia). apply Z.eqb_eq in Ec. rewrite Ec. reflexivity.
Qed.

Lemma script_ok t s i c body : t = RT_AMF0_DATA \/ t = RT_AMF3_DATA -> zlen body < 2 ^ 32 ->
  rtmp_demux_msg (mkrm t s i c body) = out_res (spec_rtmp_script s body).
Proof.
  intros Ht Hl. destruct body as [|flag b].
  { unfold rtmp_demux_msg, rm_video, rm_audio, rm_script, rm_has_body. destruct Ht as [-> | ->]; reflexivity. }
  unfold rtmp_demux_msg, rm_video, rm_audio, rm_script. rewrite has_body_cons. cbn [rm_type].
  change (rm_reader _) with (rdr (flag :: b) 0). pose proof (zlen_nonneg b). rewrite zlen_cons in Hl.
  destruct Ht as [-> | ->]; cbn [Z.eqb Pos.eqb RT_AMF0_DATA RT_AMF3_DATA RT_VIDEO RT_AUDIO andb orb rm_body rm_ts];
    rewrite rm_fin by (zl; lia); reflexivity.
Qed.

Lemma rtmp_demux_msg_ok m : bytes (rm_body m) -> zlen (rm_body m) < 2 ^ 32 ->
  rtmp_demux_msg m = out_res (spec_rtmp_msg m).
Proof.
  destruct m as [t s i c body]. cbn [rm_body]. intros Hb Hl. unfold spec_rtmp_msg. cbn [rm_type rm_ts rm_body].
  destruct (t =? 9) eqn:E9. { apply video_ok; auto. apply Z.eqb_eq; exact E9. }
  destruct (t =? 8) eqn:E8. { apply audio_ok; auto. apply Z.eqb_eq; exact E8. }
  destruct ((t =? 18) || (t =? 15)) eqn:E18. { apply script_ok; auto. unfold RT_AMF0_DATA, RT_AMF3_DATA. lia. }
  unfold rtmp_demux_msg, rm_video, rm_audio, rm_script. cbn [rm_type].
  unfold RT_VIDEO, RT_AUDIO, RT_AMF0_DATA, RT_AMF3_DATA. rewrite E9, E8, E18, !andb_false_r. reflexivity.
Qed.

Lemma rtmp_read_all_ok e ms : Forall (fun m => bytes (rm_body m) /\ zlen (rm_body m) < 2 ^ 32) ms ->
  forall fuel, (length ms < fuel)%nat -> rtmp_read_all fuel ms e = spec_rtmp_all ms e.
Proof.
  induction ms as [|m ms IH]; intros HF fuel Hfu; (destruct fuel as [|f]; [cbn in Hfu; lia|]).
  { reflexivity. }
  pose proof (Forall_inv HF) as [Hb Hl]. pose proof (Forall_inv_tail HF) as HF'. cbn [length] in Hfu.
  cbn [spec_rtmp_all]. cbn [rtmp_read_all rtmp_read_packet]. rewrite (rtmp_demux_msg_ok m Hb Hl).
  destruct (spec_rtmp_msg m) as [|p|c|] eqn:Es; cbn [out_res]; try reflexivity.
  - rewrite <- (IH HF' (S f)) by lia. reflexivity.
  - rewrite (IH HF' f) by lia. reflexivity.
Qed.

(** *** Muxer *)
Lemma push_front_drop head pre : zlen pre <= zlen head ->
  zlen (push_front head pre) = zlen head /\ drop (zlen head - zlen pre) (push_front head pre) = pre.
Proof.
  intros H. pose proof (zlen_nonneg pre). unfold push_front. split.
  - rewrite zlen_app, zlen_take by lia. lia.
  - apply drop_app_exact. rewrite zlen_take by lia. lia.
Qed.

Definition rtmp_prefix (p : pkt) : list Z :=
  if is_audio p then [u8 (p_flags p); if is_audio_seq p then 0 else 1]
  else if negb (Z.land (u8 (p_flags p)) 0xf0 =? 0x50)
  then [u8 (p_flags p); if is_video_seq p then 0 else 1] ++ rtmp_cts_bytes (p_pts p) (p_dts p)
  else [u8 (p_flags p)].
Definition rtmp_type_of (p : pkt) : Z := if is_script p then 18 else if is_audio p then 8 else 9.
Definition rtmp_chan_of (p : pkt) : Z := if is_script p || is_audio p then 4 else 6.
Definition rtmp_full_prefix (p : pkt) : list Z := if is_script p then [] else rtmp_prefix p.
Definition rtmp_message (p : pkt) : rmsg :=
  mkrm (rtmp_type_of p) (u32 (p_dts p)) 1 (rtmp_chan_of p) (rtmp_full_prefix p ++ p_data p).

Lemma rtmp_write_ok head p : 5 <= zlen head -> is_script p || is_audio p || is_video p = true ->
  rtmp_write_packet head p = (Ok (Some (rtmp_message p)), push_front head (rtmp_full_prefix p)).
Proof.
  intros Hh Hk. unfold rtmp_write_packet, rtmp_message, rtmp_type_of, rtmp_chan_of, rtmp_full_prefix.
  destruct (is_script p) eqn:Es.
  { cbn [orb app]. rewrite drop_all by lia. unfold push_front. rewrite zlen_nil, take_all by lia.
    rewrite app_nil_r. reflexivity. }
  unfold rtmp_prefix. destruct (is_audio p) eqn:Ea.
  { cbn [orb]. destruct (zlen head <? 2) eqn:E; [lia|].
    set (pre := [_; _]). destruct (push_front_drop head pre) as [Hl Hd]; [cbn; lia|].
    rewrite Hl. replace 2 with (zlen pre) at 1 by reflexivity. rewrite Hd. reflexivity. }
  cbn [orb] in Hk. rewrite Hk. destruct (zlen head <? 5) eqn:E; [lia|]. cbn [orb].
  destruct (negb (Z.land (u8 (p_flags p)) 240 =? 80)) eqn:E5.
  { set (pre := [u8 (p_flags p); _] ++ rtmp_cts_bytes _ _).
    destruct (push_front_drop head pre) as [Hl Hd]; [cbn; lia|].
    rewrite Hl. replace 5 with (zlen pre) at 1 by reflexivity. rewrite Hd. reflexivity. }
  set (pre := [u8 (p_flags p)]). destruct (push_front_drop head pre) as [Hl Hd]; [cbn; lia|].
  rewrite Hl. change (drop (zlen head - 1) (push_front head pre)) with (drop (zlen head - zlen pre) (push_front head pre)).
  rewrite Hd. reflexivity.
Qed.

Lemma push_front_twice head pre : zlen pre <= zlen head ->
  push_front (push_front head pre) pre = push_front head pre.
Proof.
  intros H. destruct (push_front_drop head pre H) as [Hl _]. pose proof (zlen_nonneg pre). unfold push_front at 1. rewrite Hl.
  unfold push_front. rewrite take_app_le by (rewrite zlen_take by lia; lia).
  f_equal. apply take_all. rewrite zlen_take by lia. lia.
Qed.

Lemma zlen_full_prefix p : zlen (rtmp_full_prefix p) <= 5.
Proof.
  unfold rtmp_full_prefix, rtmp_prefix. destruct (is_script p); [cbn; lia|]. destruct (is_audio p); [cbn; lia|].
  destruct (negb _); cbn; lia.
Qed.

(** *** Composition offsets *)
Lemma land_shift_nib c : Z.land c 0xf0 = (c / 16) mod 16 * 16.
Proof. rewrite land_f0. lia. Qed.

Lemma lxor_sign c : - 2 ^ 23 <= c < 2 ^ 23 ->
  s32 (Z.lxor (u32 (s32 c + 0xff800000)) 0xff800000) = c mod 2 ^ 24.
Proof.
  intros Hc. assert (Hs : s32 c = c) by (unfold s32; rewrite Z.mod_small; lia). rewrite Hs.
  assert (Hx : forall r hi, 0 <= r < 2 ^ 23 -> 0 <= hi < 2 ^ 9 ->
     Z.lxor (hi * 2 ^ 23 + r) 0xff800000 = Z.lxor hi 0x1ff * 2 ^ 23 + r).
  { intros r hi Hr Hh. change 0xff800000 with (0x1ff * 2 ^ 23).
    rewrite <- !(lor_add _ r 23) by lia. rewrite <- !shiftl_mul by lia. apply Z.bits_inj'. intros n Hn.
    rewrite ?Z.lxor_spec, ?Z.lor_spec, ?Z.shiftl_spec, ?Z.lxor_spec by lia.
    destruct (Z_lt_dec n 23).
    - rewrite !(Z.testbit_neg_r _ (n - 23)) by lia. cbn. destruct (Z.testbit r n); reflexivity.
    - replace (Z.testbit r n) with false. { rewrite !orb_false_r. reflexivity. }
      symmetry. destruct (Z.eq_dec r 0) as [->|]; [apply Z.bits_0|]. apply Z.bits_above_log2; [lia|].
      apply Z.lt_le_trans with 23; [|lia]. apply Z.log2_lt_pow2; lia. }
  destruct (Z_lt_dec c 0) as [Hn|Hn].
  - replace (u32 (c + 0xff800000)) with (0x1fe * 2 ^ 23 + (2 ^ 23 + c)).
    2:{ unfold u32. apply (Z.mod_unique _ _ 0); lia. }
    rewrite Hx by lia. change (Z.lxor 0x1fe 0x1ff) with 1. unfold s32. rewrite Z.mod_small by lia.
    apply (Z.mod_unique _ _ (-1)); lia.
  - replace (u32 (c + 0xff800000)) with (0x1ff * 2 ^ 23 + c).
    2:{ unfold u32. rewrite Z.mod_small; lia. }
    rewrite Hx by lia. change (Z.lxor 0x1ff 0x1ff) with 0. unfold s32. rewrite Z.mod_small by lia.
    rewrite Z.mod_small; lia.
Qed.

Lemma cts_bytes_ok pts dts : - 2 ^ 23 <= pts - dts < 2 ^ 23 ->
  rtmp_cts_bytes pts dts = [0; ((pts - dts) mod 2 ^ 24 / 16) mod 16 * 16; (pts - dts) mod 16].
Proof.
  intros H. unfold rtmp_cts_bytes. rewrite lxor_sign by exact H. set (v := (pts - dts) mod 2 ^ 24).
  assert (Hv : 0 <= v < 2 ^ 24) by (apply Z.mod_pos_bound; lia).
  f_equal; [|f_equal; [|f_equal]].
  - unfold u8. rewrite <- (Z.land_ones _ 8) by lia. rewrite <- Z.land_assoc.
    change (Z.land 0x0f00 (Z.ones 8)) with 0. apply Z.land_0_r.
  - rewrite land_shift_nib. unfold u8. apply Z.mod_small. pose proof (Z.mod_pos_bound (v / 16) 16). lia.
  - rewrite land_0f. unfold u8. pose proof (Z.mod_pos_bound v 16). rewrite Z.mod_small by lia.
    subst v. change (2 ^ 24) with (16 * 2 ^ 20). rewrite Z.rem_mul_r by lia.
    rewrite Z.mul_comm, Z_mod_plus_full. apply Z.mod_mod; lia.
Qed.

Lemma cts_seen_ok c : - 2 ^ 23 <= c < 2 ^ 23 ->
  flv_sign24 (bev [0; (c mod 2 ^ 24 / 16) mod 16 * 16; c mod 16]) = rtmp_cts_seen c.
Proof.
  intros _. unfold rtmp_cts_seen. f_equal. unfold bev; cbn [fold_left]. lia.
Qed.

Lemma cts_seen_same c : - 2 ^ 23 <= c < 2 ^ 23 -> rtmp_cts_seen c = c <-> 0 <= c <= 15.
Proof.
  intros Hc. unfold rtmp_cts_seen, flv_sign24. set (v := c mod 2 ^ 24).
  pose proof (Z.mod_pos_bound (v / 16) 16 eq_refl) as H1. pose proof (Z.mod_pos_bound c 16 eq_refl) as H2.
  destruct (_ <? _) eqn:E; [|lia].
  split.
  - intros H. assert (0 <= c) by lia. assert (Hv : v = c) by (apply Z.mod_small; lia). rewrite Hv in *.
    zify_divmod. nia.
  - intros H. assert (Hv : v = c) by (apply Z.mod_small; lia). rewrite Hv in *.
    rewrite (Z.div_small c 16) by lia. rewrite (Z.mod_small c 16) by lia. reflexivity.
Qed.

(** *** The byte interface: reading *)
Definition head_text (m : rmsg) : list Z :=
  [rm_type m] ++ be 3 (zlen (rm_body m)) ++ be 3 (rm_ts m) ++ be 1 (rm_ts m / 2 ^ 24) ++ be 3 (rm_sid m).

Lemma zlen_head_text m : zlen (head_text m) = 11.
Proof. unfold head_text. rewrite !zlen_app, !zlen_be. reflexivity. Qed.

Lemma tag_text_split m : flv_tag_text m = head_text m ++ rm_body m ++ be 4 (zlen (rm_body m) + 11).
Proof. unfold flv_tag_text, head_text. rewrite <- !app_assoc. reflexivity. Qed.

Lemma zlen_tag_text m : zlen (flv_tag_text m) = zlen (rm_body m) + 15.
Proof. rewrite tag_text_split, !zlen_app, zlen_head_text, zlen_be. lia. Qed.

Lemma flv_head11_ok m : rmsg_wf m -> flv_head11 m = Ok (head_text m).
Proof.
  intros (Hb & Hl & Ht & Hts & Hs). unfold flv_head11.
  rewrite wr8_ok by (cbn; lia). cbn [bind bw_out bw_cap app].
  rewrite wr24_ok by (cbn [bw_out bw_cap]; rewrite ?zlen_app, ?zlen_be; lia). cbn [bind bw_out bw_cap].
  rewrite wr24_ok by (cbn [bw_out bw_cap]; rewrite ?zlen_app, ?zlen_be; lia). cbn [bind bw_out bw_cap].
  rewrite wr8_ok by (cbn [bw_out bw_cap]; rewrite ?zlen_app, ?zlen_be; lia). cbn [bind bw_out bw_cap].
  rewrite wr24_ok by (cbn [bw_out bw_cap]; rewrite ?zlen_app, ?zlen_be; lia). cbn [bind bw_out bw_cap].
  unfold head_text. rewrite <- !app_assoc. rewrite be_1, Z.mod_small by (unfold byte in Ht; lia).
  rewrite shiftr_div by lia. rewrite (land_ones_mod _ 24) by (reflexivity || lia).
  change (2 ^ 24) with (256 ^ Z.of_nat 3) at 1. rewrite be_mod. reflexivity.
Qed.

Lemma bg_next_ok ms :
  match bg_next ms with
  | None => filter flv_media ms = []
  | Some (m, ms') => filter flv_media ms = m :: filter flv_media ms' /\ flv_media m = true /\ In m ms /\
                     (forall P : rmsg -> Prop, Forall P ms -> Forall P ms') /\ (length ms' < length ms)%nat
  end.
Proof.
  induction ms as [|m ms IH]; [reflexivity|]. cbn [bg_next filter].
  replace (rm_video m || rm_audio m || rm_script m) with (flv_media m).
  2:{ unfold flv_media, rm_video, rm_audio, rm_script, rm_has_body, RT_VIDEO, RT_AUDIO, RT_AMF0_DATA, RT_AMF3_DATA.
      destruct (negb (zlen (rm_body m) =? 0)); cbn [andb orb]; [|reflexivity]. rewrite !orb_assoc. reflexivity. }
  destruct (flv_media m) eqn:Em.
  - split; [reflexivity|]. split; [exact Em|]. split; [now left|]. split; [intros P HP; exact (Forall_inv_tail HP)|cbn; lia].
  - destruct (bg_next ms) as [[m' ms']|]; [|exact IH].
    destruct IH as (A & B & C & D & E). split; [exact A|]. split; [exact B|]. split; [now right|].
    split; [intros P HP; apply D; exact (Forall_inv_tail HP)|cbn [length]; lia].
Qed.

Lemma take_drop_split {A} (l : list A) n : take n l ++ drop n l = l.
Proof. apply take_drop. Qed.

(** One copy takes the next bytes of the tag text. *)
Lemma bg_copy_ok m off size : rmsg_wf m -> 0 <= size -> 0 <= off -> off <= zlen (rm_body m) + 11 ->
  exists d off1, bg_copy m (head_text m) off size = Ok (d, off1) /\
    drop off (flv_tag_text m) = d ++ drop off1 (flv_tag_text m) /\
    off <= off1 /\ (off1 <= zlen (rm_body m) + 11 \/ off1 = zlen (rm_body m) + 15) /\
    zlen d = off1 - off /\ zlen d <= size /\ (4 <= size -> off < off1) /\
    (1 <= size -> off < zlen (rm_body m) + 11 -> off < off1) /\
    (off = zlen (rm_body m) + 11 -> size < 4 -> d = [] /\ off1 = off).
Proof.
  intros Hw Hs Ho Hoff. set (L := zlen (rm_body m)) in *. assert (HL : 0 <= L) by apply zlen_nonneg.
  assert (HT : zlen (flv_tag_text m) = L + 15) by apply zlen_tag_text.
  unfold bg_copy. fold L.
  (* stage 1 *)
  assert (S1 : exists d1 off1, (if negb (size =? 0) && (off <? 11)
             then let? d := of_opt (slice (head_text m) off (Z.min size (11 - off))) in
                  Ok (d, size - Z.min size (11 - off), off + Z.min size (11 - off))
             else Ok ([], size, off)) = Ok (d1, size - (off1 - off), off1) /\
             drop off (flv_tag_text m) = d1 ++ drop off1 (flv_tag_text m) /\ zlen d1 = off1 - off /\
             (off1 - off = size \/ 11 <= off1) /\ off1 - off <= size /\ off <= off1 /\ off1 <= L + 11 /\
             (1 <= size -> off < 11 -> off < off1)).
  { destruct (negb (size =? 0) && (off <? 11)) eqn:E.
    - cbv zeta. rewrite slice_some by (rewrite ?zlen_head_text; lia). cbn [of_opt bind].
      exists (take (Z.min size (11 - off)) (drop off (head_text m))), (off + Z.min size (11 - off)).
      split. { do 2 f_equal. f_equal. lia. }
      split.
      { rewrite tag_text_split. rewrite (drop_app_le off) by (rewrite zlen_head_text; lia).
        rewrite (drop_app_le (off + _)) by (rewrite zlen_head_text; lia).
        rewrite (Z.add_comm off), <- drop_drop by lia.
        rewrite (app_assoc (take _ _)), take_drop. reflexivity. }
      split. { rewrite zlen_take; rewrite ?zlen_drop; rewrite ?zlen_head_text; lia. }
      repeat split; lia.
    - exists [], off. split; [do 2 f_equal; f_equal; lia|]. split; [reflexivity|]. rewrite zlen_nil. repeat split; lia. }
  destruct S1 as (d1 & off1 & -> & T1 & Z1 & F1 & G1 & K1 & M1 & P1). cbn [bind].
  set (size1 := size - (off1 - off)).
  assert (S2 : exists d2 off2, (if negb (size1 =? 0) && (off1 <? 11 + L)
             then let? d := of_opt (slice (rm_body m) (off1 - 11) (Z.min size1 (L + 11 - off1))) in
                  Ok (d, size1 - Z.min size1 (L + 11 - off1), off1 + Z.min size1 (L + 11 - off1))
             else Ok ([], size1, off1)) = Ok (d2, size - (off2 - off), off2) /\
             drop off1 (flv_tag_text m) = d2 ++ drop off2 (flv_tag_text m) /\ zlen d2 = off2 - off1 /\
             (off2 - off = size \/ L + 11 = off2) /\ off2 - off <= size /\ off1 <= off2 /\ off2 <= L + 11).
  { destruct (negb (size1 =? 0) && (off1 <? 11 + L)) eqn:E.
    - assert (11 <= off1) by lia. cbv zeta. rewrite slice_some by (fold L; lia). cbn [of_opt bind].
      exists (take (Z.min size1 (L + 11 - off1)) (drop (off1 - 11) (rm_body m))), (off1 + Z.min size1 (L + 11 - off1)).
      split. { do 2 f_equal. f_equal. lia. }
      split.
      { rewrite tag_text_split.
        rewrite !(drop_app_ge _ (head_text m)) by (rewrite zlen_head_text; lia). rewrite zlen_head_text.
        rewrite !(drop_app_le _ (rm_body m)) by (fold L; lia).
        replace (off1 + Z.min size1 (L + 11 - off1) - 11) with (Z.min size1 (L + 11 - off1) + (off1 - 11)) by lia.
        rewrite <- drop_drop by lia. rewrite (app_assoc (take _ _)), take_drop. reflexivity. }
      split. { rewrite zlen_take; rewrite ?zlen_drop; fold L; lia. }
      repeat split; lia.
    - exists [], off1. split; [do 2 f_equal; f_equal; lia|]. split; [reflexivity|]. rewrite zlen_nil. repeat split; lia. }
  destruct S2 as (d2 & off2 & -> & T2 & Z2 & F2 & G2 & K2 & M2). cbn [bind].
  destruct (4 <=? size - (off2 - off)) eqn:E4.
  - rewrite wr32_ok by (cbn; lia). cbn [bind bw_out app].
    exists (d1 ++ d2 ++ be 4 (L + 11)), (off2 + 4). split; [reflexivity|]. assert (off2 = L + 11) by lia.
    split.
    { rewrite T1, T2, <- !app_assoc. do 2 f_equal. rewrite (drop_all (off2 + 4)) by lia. rewrite app_nil_r.
      rewrite tag_text_split, app_assoc. apply drop_app_exact. rewrite zlen_app, zlen_head_text. fold L; lia. }
    rewrite !zlen_app, zlen_be. repeat split; try lia.
  - exists (d1 ++ d2), off2. split; [reflexivity|].
    split. { rewrite T1, T2, <- app_assoc. reflexivity. }
    rewrite zlen_app. repeat split; try lia.
    destruct d1; [|rewrite zlen_cons in Z1; pose proof (zlen_nonneg d1); lia].
    destruct d2; [reflexivity|rewrite zlen_cons in Z2; pose proof (zlen_nonneg d2); lia].
Qed.

Definition bg_inv (b : bridge) : Prop :=
  Forall rmsg_wf (bg_in b) /\
  match bg_cur b with
  | None => True
  | Some (m, h) => rmsg_wf m /\ h = head_text m /\ 0 <= bg_off b /\
                   (bg_off b <= zlen (rm_body m) + 11 \/ bg_off b = zlen (rm_body m) + 15)
  end /\ (bg_head b = false -> bg_cur b = None).
(** The bytes still to come. *)
Definition bg_rest (b : bridge) : list Z :=
  (if bg_head b then [] else flv_header13) ++
  (match bg_cur b with None => [] | Some (m, _) => drop (bg_off b) (flv_tag_text m) end) ++
  concat (map flv_tag_text (filter flv_media (bg_in b))).

Lemma bg_read_ok b size : bg_inv b -> 0 <= size ->
  match bg_read b size with
  | (Ok d, b1) => bg_inv b1 /\ bg_rest b = d ++ bg_rest b1 /\ zlen d <= size /\ bg_err b1 = bg_err b /\
                  bg_head b1 = true /\ (4 <= size -> d <> [])
  | (Err c, b1) => (bg_head b = false /\ size < 13 /\ c = ERROR_IO_NOT_ENOUGH /\ b1 = b) \/
                   (bg_head b = true /\ bg_rest b = [] /\ c = bg_err b /\ bg_inv b1 /\ bg_rest b1 = [] /\
                    bg_err b1 = bg_err b /\ bg_head b1 = true)
  | _ => False
  end.
Proof.
  intros (HF & HC & HH) Hs. unfold bg_read. destruct b as [ms e cur off hd]. cbn [bg_in bg_err bg_cur bg_off bg_head] in *.
  destruct hd; cbn [negb].
  2:{ rewrite (HH eq_refl) in *. destruct (size <? 13) eqn:E.
      - left. repeat split; lia.
      - split. { split; [exact HF|]. split; [exact I|discriminate]. }
        unfold bg_rest. cbn [bg_in bg_err bg_cur bg_off bg_head app].
        repeat split; try reflexivity; try lia. { change (zlen flv_header13) with 13. lia. } discriminate. }
  assert (FIN : forall m off' ms', rmsg_wf m -> Forall rmsg_wf ms' -> 0 <= off' <= zlen (rm_body m) + 11 ->
     match (match bg_copy m (head_text m) off' size with
            | Ok (d, off1) => (Ok d, mkbg ms' e (Some (m, head_text m)) off1 true)
            | _ => (UB, mkbg ms e cur off true)
            end) with
     | (Ok d, b1) => bg_inv b1 /\ drop off' (flv_tag_text m) ++ concat (map flv_tag_text (filter flv_media ms')) = d ++ bg_rest b1 /\
         zlen d <= size /\ bg_err b1 = e /\ bg_head b1 = true /\ (4 <= size -> d <> [])
     | _ => False
     end).
  { intros m off' ms' Hm Hms Ho. destruct (bg_copy_ok m off' size Hm Hs) as (d & off1 & -> & T & A & B & C & D & E & F & G); try lia.
    split. { split; [exact Hms|]. split; [|discriminate]. cbn [bg_cur bg_off]. repeat split; try assumption; try apply Hm; lia. }
    unfold bg_rest. cbn [bg_in bg_err bg_cur bg_off bg_head app]. rewrite T, <- app_assoc.
    repeat split; try lia. intros H4 ->. change (zlen (@nil Z)) with 0 in C. specialize (E H4). lia. }
  assert (FET : cur = None \/ (exists m h, cur = Some (m, h) /\ off = zlen (rm_body m) + 15) ->
     match (match bg_next ms with
            | None => (Err e, mkbg [] e None 0 true)
            | Some (m, ms') =>
                match flv_head11 m with
                | Ok h => match bg_copy m h 0 size with
                          | Ok (d, off1) => (Ok d, mkbg ms' e (Some (m, h)) off1 true)
                          | _ => (UB, mkbg ms e cur off true)
                          end
                | _ => (UB, mkbg ms e cur off true)
                end
            end) with
     | (Ok d, b1) => bg_inv b1 /\ bg_rest (mkbg ms e cur off true) = d ++ bg_rest b1 /\ zlen d <= size /\ bg_err b1 = e /\
                     bg_head b1 = true /\ (4 <= size -> d <> [])
     | (Err c, b1) => (true = false /\ size < 13 /\ c = ERROR_IO_NOT_ENOUGH /\ b1 = mkbg ms e cur off true) \/
                   (true = true /\ bg_rest (mkbg ms e cur off true) = [] /\ c = e /\ bg_inv b1 /\ bg_rest b1 = [] /\
                    bg_err b1 = e /\ bg_head b1 = true)
     | _ => False
     end).
  { intros Hcur. pose proof (bg_next_ok ms) as HN.
    assert (R : bg_rest (mkbg ms e cur off true) = concat (map flv_tag_text (filter flv_media ms))).
    { unfold bg_rest. cbn [bg_in bg_err bg_cur bg_off bg_head app]. destruct Hcur as [-> | (m & h & -> & ->)]; [reflexivity|].
      rewrite drop_all by (rewrite zlen_tag_text; lia). reflexivity. }
    rewrite R. destruct (bg_next ms) as [[m ms']|].
    - destruct HN as (A & B & C & D & _). rewrite Forall_forall in HF. pose proof (HF m C) as Hm. rewrite <- Forall_forall in HF.
      rewrite flv_head11_ok by exact Hm. rewrite A. cbn [map concat].
      pose proof (FIN m 0 ms' Hm (D _ HF)) as FF. rewrite drop_0 in FF by lia.
      specialize (FF ltac:(pose proof (zlen_nonneg (rm_body m)); lia)).
      destruct (bg_copy m (head_text m) 0 size) as [[d off1]| | |]; exact FF.
    - right. rewrite HN. repeat split; try reflexivity; try discriminate. constructor. }
  destruct cur as [[m h]|].
  - destruct HC as (Hm & -> & Ho1 & Ho2). destruct (zlen (rm_body m) + 11 + 4 =? off) eqn:Eo.
    + apply FET. right. exists m, (head_text m). split; [reflexivity|lia].
    + pose proof (FIN m off ms Hm HF ltac:(lia)) as FF. unfold bg_rest at 1. cbn [bg_in bg_err bg_cur bg_off bg_head app].
      destruct (bg_copy m (head_text m) off size) as [[d off1]| | |]; exact FF || destruct FF.
  - apply FET. now left.
Qed.

Lemma bg_inv0 ms e : Forall rmsg_wf ms -> bg_inv (bridge0 ms e).
Proof. intros H. split; [exact H|]. split; [exact I|reflexivity]. Qed.
Lemma bg_rest0 ms e : bg_rest (bridge0 ms e) = flv_text ms.
Proof. reflexivity. Qed.

(** Any run of reads delivers a prefix of the text. *)
Lemma bg_run_ok sizes : forall b, bg_inv b -> bg_head b = true -> Forall (fun n => 0 <= n) sizes ->
  match bg_run b sizes with
  | (ds, Ok _, b1) => bg_rest b = concat ds ++ bg_rest b1 /\ bg_inv b1 /\ bg_head b1 = true /\ bg_err b1 = bg_err b /\
                      length ds = length sizes /\ Forall2 (fun d n => zlen d <= n) ds sizes /\
                      (Forall (fun n => 4 <= n) sizes -> Forall (fun d => d <> []) ds)
  | (ds, Err c, _) => bg_rest b = concat ds /\ c = bg_err b
  | _ => False
  end.
Proof.
  induction sizes as [|n ns IH]; intros b Hb Hh HF; cbn [bg_run].
  { split; [reflexivity|]. split; [exact Hb|]. split; [exact Hh|]. repeat split; constructor. }
  pose proof (bg_read_ok b n Hb (Forall_inv HF)) as HR. destruct (bg_read b n) as [[d|c| |] b1]; try contradiction.
  - destruct HR as (A & B & C & D & E & F). specialize (IH b1 A E (Forall_inv_tail HF)).
    destruct (bg_run b1 ns) as [[ds x] b2]. destruct x as [u|c| |]; try contradiction.
    + destruct IH as (I1 & I2 & I3 & I4 & I5 & I6 & I7). cbn [concat]. rewrite B, I1, <- app_assoc.
      split; [reflexivity|]. split; [assumption|]. split; [assumption|]. split; [congruence|].
      split; [cbn [length]; lia|]. split; [constructor; assumption|].
      intros H4. constructor; [apply F; exact (Forall_inv H4)|apply I7; exact (Forall_inv_tail H4)].
    + destruct IH as (I1 & I2). cbn [concat]. rewrite B, I1. split; congruence.
  - destruct HR as [(A & _)|(A & B & C & D)]; [congruence|]. split; [exact B|exact C].
Qed.

Lemma concat_nonempty_len (ds : list (list Z)) : Forall (fun d => d <> []) ds -> zlen ds <= zlen (concat ds).
Proof.
  induction ds as [|d ds IH]; intros H; [cbn; lia|]. cbn [concat]. rewrite zlen_cons, zlen_app.
  specialize (IH (Forall_inv_tail H)). pose proof (Forall_inv H) as Hd. cbn beta in Hd. destruct d as [|x d]; [congruence|].
  rewrite zlen_cons. pose proof (zlen_nonneg d). lia.
Qed.

(** *** The byte interface: writing *)
Record W (r : breader) (s : list Z) : Prop := mk_W { w_ok : br_ok r; w_io : br_io r = None; w_str : br_stream r = s }.

Lemma W_buffered r s : W r s -> buffered r = zlen s.
Proof.
  intros [H1 H2 H3]. rewrite <- H3. unfold br_stream. rewrite H2, app_nil_r, zlen_pending by exact H1. reflexivity.
Qed.
Lemma W_size r s : W r s -> ab_size (br_buf r) = zlen s.
Proof.
  intros H. rewrite <- (W_buffered r s H). destruct H as [H1 H2 H3]. destruct H1 as (A & B & C & _).
  unfold ab_size, buffered. apply u64_small. lia.
Qed.
Lemma W_skip r s k : W r s -> 0 <= k <= zlen s -> W (rdskip r k) (drop k s).
Proof.
  intros H Hk. rewrite <- (W_buffered r s H) in Hk. destruct H as [H1 H2 H3].
  destruct (rdskip_step r k H1 Hk) as [A B C D E F]. constructor; [exact A| |congruence].
  unfold rdskip. cbn [br_io]. exact H2.
Qed.
Lemma W_rd8 r x s : W r (x :: s) -> rd8 r = Ok (x, rdskip r 1) /\ W (rdskip r 1) s.
Proof.
  intros H. pose proof (zlen_nonneg s). split; [|apply (W_skip _ _ 1 H); rewrite zlen_cons; lia].
  pose proof (W_buffered _ _ H) as Hb. rewrite zlen_cons in Hb. destruct H as [H1 H2 H3].
  rewrite rd8_step by (auto; lia). rewrite H3. reflexivity.
Qed.
Lemma W_rd24 r a b c s : W r (a :: b :: c :: s) -> bytes (a :: b :: c :: s) ->
  rd24 r = Ok (bev [a; b; c], rdskip r 3) /\ W (rdskip r 3) s.
Proof.
  intros H HB. pose proof (zlen_nonneg s). split; [|apply (W_skip _ _ 3 H); rewrite !zlen_cons; lia].
  pose proof (W_buffered _ _ H) as Hb. rewrite !zlen_cons in Hb. destruct H as [H1 H2 H3].
  rewrite rd24_step by (auto; try lia; rewrite H3; exact HB). rewrite H3. reflexivity.
Qed.
Lemma W_rd32 r s : W r s -> bytes s -> 4 <= zlen s ->
  rd32 r = Ok (bev (take 4 s), rdskip r 4) /\ W (rdskip r 4) (drop 4 s).
Proof.
  intros H HB Hl. split; [|apply (W_skip _ _ 4 H); lia].
  pose proof (W_buffered _ _ H) as Hb. destruct H as [H1 H2 H3].
  rewrite rd32_step by (auto; try lia; rewrite H3; exact HB). rewrite H3. reflexivity.
Qed.
Lemma W_rdbytes r s k : W r s -> 0 <= k <= zlen s ->
  rdbytes r k = Ok (take k s, rdskip r k) /\ W (rdskip r k) (drop k s).
Proof.
  intros H Hk. split; [|apply (W_skip _ _ k H); lia].
  rewrite <- (W_buffered _ _ H) in Hk. destruct H as [H1 H2 H3].
  destruct (rdbytes_ok r k H1) as [-> _]; [exact Hk|]. rewrite H3. reflexivity.
Qed.

Lemma bw_head_short r s : W r s -> zlen s < 11 -> bw_head r = Err ERROR_IO_NOT_ENOUGH.
Proof.
  intros H Hl. unfold bw_head. rewrite (W_size _ _ H). destruct (zlen s <? 11) eqn:E; [reflexivity|lia].
Qed.
Lemma bw_head_ok r t l0 l1 l2 a b c x s0 s1 s2 rest :
  let s := t :: l0 :: l1 :: l2 :: a :: b :: c :: x :: s0 :: s1 :: s2 :: rest in
  W r s -> bytes s -> exists r1, bw_head r = Ok (t, bev [l0; l1; l2], bev [x; a; b; c], r1) /\ W r1 rest.
Proof.
  intros s H HB. unfold bw_head. rewrite (W_size _ _ H). subst s. pose proof (zlen_nonneg rest).
  destruct (_ <? 11) eqn:E; [rewrite !zlen_cons in E; lia|]. clear E.
  destruct (W_rd8 _ _ _ H) as [-> H1]. cbn [bind fst snd]. apply bytes_cons in HB as [HBt HB].
  destruct (W_rd24 _ _ _ _ _ H1 HB) as [-> W2]. cbn [bind fst snd].
  do 3 (apply bytes_cons in HB as [? HB]).
  destruct (W_rd24 _ _ _ _ _ W2 HB) as [-> W3]. cbn [bind fst snd].
  do 3 (apply bytes_cons in HB as [? HB]).
  destruct (W_rd8 _ _ _ W3) as [-> W4]. cbn [bind fst snd]. apply bytes_cons in HB as [HBx HB].
  destruct (W_rd24 _ _ _ _ _ W4 HB) as [-> W5]. cbn [bind fst snd].
  eexists. split; [|exact W5]. do 3 f_equal.
  replace (u32 (Z.shiftl x 24)) with (Z.shiftl x 24)
    by (unfold u32, byte in *; rewrite shiftl_mul, Z.mod_small; lia). apply flv_dts_lor. repeat (constructor; [assumption|]). constructor.
Qed.

Lemma bw_loop_ok e : forall fuel r s oks, W r s -> bytes s -> (length s < fuel)%nat ->
  bw_loop fuel r oks e = sends (flv_parse fuel s) oks e.
Proof.
  induction fuel as [|f IH]; intros r s oks H HB Hf; [lia|]. cbn [bw_loop]. rewrite (W_size _ _ H).
  destruct (zlen s <=? 0) eqn:E0.
  { destruct s as [|x s]; [reflexivity|]. rewrite zlen_cons in E0. pose proof (zlen_nonneg s). lia. }
  assert (Hshort : zlen s < 11 -> flv_parse (S f) s = ([], Err ERROR_IO_NOT_ENOUGH)).
  { intros Hs. destruct s as [|t [|l0 [|l1 [|l2 [|a [|b [|c [|x [|s0 [|s1 [|s2 rest]]]]]]]]]]]; try reflexivity.
    - cbn in E0; lia.
    - rewrite !zlen_cons in Hs. pose proof (zlen_nonneg rest). lia. }
  destruct (Z_lt_dec (zlen s) 11) as [Hs|Hs].
  { rewrite (bw_head_short _ _ H Hs), (Hshort Hs). reflexivity. }
  clear Hshort.
  destruct s as [|t [|l0 [|l1 [|l2 [|a [|b [|c [|x [|s0 [|s1 [|s2 rest]]]]]]]]]]];
    try (exfalso; cbn in Hs; lia).
  destruct (bw_head_ok _ _ _ _ _ _ _ _ _ _ _ _ _ H HB) as (r1 & -> & H1).
  rewrite (W_size _ _ H1). cbn [flv_parse].
  assert (HBr : bytes rest) by (do 11 (apply bytes_cons in HB as [? HB]); exact HB).
  set (n := bev [l0; l1; l2]).
  assert (Hn : 0 <= n).
  { apply bev_range. do 1 (apply bytes_cons in HB as [? HB]). do 3 (apply bytes_cons in HB as [? HB]).
    repeat (constructor; [assumption|]). constructor. }
  destruct (zlen rest <? n + 4) eqn:En; [reflexivity|].
  destruct (W_rdbytes _ _ n H1 ltac:(lia)) as [-> H2].
  assert (Hl2 : 4 <= zlen (drop n rest)) by (rewrite zlen_drop by lia; lia).
  destruct (W_rd32 _ _ H2 (bytes_drop _ _ HBr) Hl2) as [-> H3].
  destruct (bev (take 4 (drop n rest)) =? n + 11) eqn:Ep; cbn [negb]; [|reflexivity].
  rewrite drop_drop in H3 by lia. replace (4 + n) with (n + 4) in H3 by lia.
  rewrite (IH _ _ (tl oks) H3 (bytes_drop _ _ HBr)).
  2:{ cbn [length] in Hf. unfold drop. rewrite skipn_length. lia. }
  cbn [length] in Hf.
  destruct (flv_parse f (drop (n + 4) rest)) as [ms y]. cbn [sends].
  destruct oks as [|[] oks]; reflexivity.
Qed.

Lemma bg_write_ok hd buf oks e : bytes buf -> zlen buf < 2 ^ 62 ->
  bg_write hd buf oks e =
  if hd then (sends (flv_parse (S (length buf)) buf) oks e, true)
  else if zlen buf <? 13 then ([], Err ERROR_FLV_TAG, false)
  else (sends (flv_parse (S (length (drop 13 buf))) (drop 13 buf)) oks e, true).
Proof.
  intros HB Hl. unfold bg_write.
  assert (HW : forall s, zlen s < 2 ^ 62 -> W (mkbr (mkab s 0 (zlen s) false) None) s).
  { intros s Hs. pose proof (zlen_nonneg s). constructor.
    - unfold br_ok, ab_cap. cbn [br_buf br_io ab_data ab_ptr ab_end]. lia.
    - reflexivity.
    - unfold br_stream, br_pending. cbn [br_buf br_io ab_data ab_ptr ab_end].
      rewrite drop_0, take_all, app_nil_r by lia. reflexivity. }
  destruct hd; cbn [negb andb].
  - rewrite (bw_loop_ok e _ _ buf oks (HW _ Hl) HB) by lia.
    destruct (sends _ _ _) as [ms y]. reflexivity.
  - destruct (zlen buf <? 13) eqn:E; [reflexivity|].
    assert (Hd : zlen (drop 13 buf) < 2 ^ 62) by (rewrite zlen_drop by lia; lia).
    rewrite (bw_loop_ok e _ _ (drop 13 buf) oks (HW _ Hd) (bytes_drop _ _ HB)) by lia.
    destruct (sends _ _ _) as [ms y]. reflexivity.
Qed.

(** Texts of whole tags parse back. *)
Lemma flv_parse_tags tail : forall ms fuel, Forall rmsg_wf ms -> (length ms + length tail < fuel)%nat ->
  flv_parse fuel (concat (map flv_tag_text ms) ++ tail) =
  let '(ms', x) := flv_parse (fuel - length ms) tail in (map as_sent ms ++ ms', x).
Proof.
  induction ms as [|m ms IH]; intros fuel HF Hf.
  { cbn [map concat app length]. rewrite Nat.sub_0_r. destruct (flv_parse fuel tail). reflexivity. }
  cbn [map concat]. destruct fuel as [|f]; [cbn in Hf; lia|]. cbn [length] in Hf.
  pose proof (Forall_inv HF) as (Hb & Hl & Ht & Hts & Hs).
  assert (HT : forall tl0, (flv_tag_text m ++ tl0) = rm_type m ::
     zlen (rm_body m) / 256 / 256 mod 256 :: zlen (rm_body m) / 256 mod 256 :: zlen (rm_body m) mod 256 ::
     rm_ts m / 256 / 256 mod 256 :: rm_ts m / 256 mod 256 :: rm_ts m mod 256 :: (rm_ts m / 2 ^ 24) mod 256 ::
     rm_sid m / 256 / 256 mod 256 :: rm_sid m / 256 mod 256 :: rm_sid m mod 256 ::
     (rm_body m ++ be 4 (zlen (rm_body m) + 11)) ++ tl0).
  { intros tl0. unfold flv_tag_text. cbn [be app]. rewrite <- ?app_assoc. reflexivity. }
  rewrite <- app_assoc. rewrite HT. cbn [flv_parse].
  change [zlen (rm_body m) / 256 / 256 mod 256; zlen (rm_body m) / 256 mod 256; zlen (rm_body m) mod 256]
    with (be 3 (zlen (rm_body m))). rewrite bev_be. change (256 ^ Z.of_nat 3) with (2 ^ 24).
  pose proof (zlen_nonneg (rm_body m)) as Hn. rewrite (Z.mod_small (zlen (rm_body m))) by lia.
  set (rest := concat (map flv_tag_text ms) ++ tail) in *. pose proof (zlen_nonneg rest).
  rewrite !zlen_app, zlen_be. destruct (_ <? _) eqn:E; [lia|]. clear E.
  rewrite <- app_assoc. rewrite (drop_app_exact _ (rm_body m)) by reflexivity.
  rewrite (take_app_exact 4 (be 4 _)) by (rewrite zlen_be; reflexivity).
  rewrite bev_be, (Z.mod_small (zlen (rm_body m) + 11)) by (change (256 ^ Z.of_nat 4) with (2 ^ 32); lia).
  rewrite Z.eqb_refl. rewrite (take_app_exact _ (rm_body m)) by reflexivity.
  rewrite (app_assoc (rm_body m)). rewrite (drop_app_exact (zlen (rm_body m) + 4)) by (rewrite zlen_app, zlen_be; lia).
  unfold rest. rewrite IH by (try exact (Forall_inv_tail HF); lia). cbn [length Nat.sub].
  destruct (flv_parse (f - length ms) tail) as [ms' x]. cbn [app]. do 2 f_equal. unfold as_sent. f_equal.
  replace (rm_ts m / 2 ^ 24 mod 256) with (rm_ts m / 256 / 256 / 256 mod 256).
  2:{ rewrite !Z.div_div by lia. reflexivity. }
  change [rm_ts m / 256 / 256 / 256 mod 256; rm_ts m / 256 / 256 mod 256; rm_ts m / 256 mod 256; rm_ts m mod 256]
    with (be 4 (rm_ts m)). rewrite bev_be. apply Z.mod_small. change (256 ^ Z.of_nat 4) with (2 ^ 32). lia.
Qed.

(** *** The bridged stream read as FLV *)
Lemma bridge_next cap e m p0 p1 p2 p3 s : bridgeable cap m -> flv_media m = true ->
  exists p, spec_rtmp_msg m = RPacket p /\
    spec_flv_next cap e (p0 :: p1 :: p2 :: p3 :: flv_tag_text m ++ s) =
    FPacket (flv_view p) (be 4 (zlen (rm_body m) + 11) ++ s).
Proof.
  intros ((Hb & Hl & Ht & Hts & Hs) & Hcap & Hk) Hm. pose proof (zlen_nonneg (rm_body m)) as Hn.
  set (L := zlen (rm_body m)) in *.
  assert (HT : p0 :: p1 :: p2 :: p3 :: flv_tag_text m ++ s = p0 :: p1 :: p2 :: p3 :: rm_type m ::
     L / 256 / 256 mod 256 :: L / 256 mod 256 :: L mod 256 ::
     rm_ts m / 256 / 256 mod 256 :: rm_ts m / 256 mod 256 :: rm_ts m mod 256 :: (rm_ts m / 2 ^ 24) mod 256 ::
     rm_sid m / 256 / 256 mod 256 :: rm_sid m / 256 mod 256 :: rm_sid m mod 256 ::
     rm_body m ++ be 4 (L + 11) ++ s).
  { unfold flv_tag_text. fold L. cbn [be app]. rewrite <- ?app_assoc. reflexivity. }
  rewrite HT. cbn [spec_flv_next].
  change [L / 256 / 256 mod 256; L / 256 mod 256; L mod 256] with (be 3 L).
  rewrite (bev_be_small 3) by (change (256 ^ Z.of_nat 3) with (2 ^ 24); lia).
  replace (rm_ts m / 2 ^ 24 mod 256) with (rm_ts m / 256 / 256 / 256 mod 256).
  2:{ rewrite !Z.div_div by lia. reflexivity. }
  change [rm_ts m / 256 / 256 / 256 mod 256; rm_ts m / 256 / 256 mod 256; rm_ts m / 256 mod 256; rm_ts m mod 256]
    with (be 4 (rm_ts m)). rewrite (bev_be_small 4) by (change (256 ^ Z.of_nat 4) with (2 ^ 32); lia).
  destruct (cap <? L) eqn:E1; [lia|]. clear E1. pose proof (zlen_nonneg s). rewrite !zlen_app, zlen_be. fold L.
  destruct (L + (Z.of_nat 4 + zlen s) <? L) eqn:E2; [lia|]. clear E2.
  rewrite (take_app_exact L), (drop_app_exact L) by reflexivity. unfold spec_rtmp_msg.
  destruct Hk as [Hk|[(Hty & flag & ty & x & d & Hbody & Hf)|[(Hty & flag & ty & c0 & c1 & c2 & x & d & Hbody & Hc & Hf)|
     [(Hty & flag & x & d & Hbody & Hc & Hf)|Hty]]]]; [congruence| | | |].
  - rewrite Hty, Hbody. cbn [Z.eqb Pos.eqb]. unfold spec_rtmp_audio, flv_audio_body. rewrite Hf, Z.eqb_refl. cbn [negb].
    eexists. split; reflexivity.
  - rewrite Hty, Hbody. cbn [Z.eqb Pos.eqb]. unfold spec_rtmp_video, flv_video_body.
    replace (negb (flag mod 16 =? CODEC_H264) && negb (flag mod 16 =? CODEC_H265)) with false by (unfold CODEC_H264, CODEC_H265 in *; lia).
    destruct (flag / 16 =? 5) eqn:E5; [lia|]. eexists. split; [reflexivity|].
    unfold flv_view. cbn [p_stream p_flags]. rewrite E5. reflexivity.
  - rewrite Hty, Hbody. cbn [Z.eqb Pos.eqb]. unfold spec_rtmp_video, flv_video_body.
    replace (negb (flag mod 16 =? CODEC_H264) && negb (flag mod 16 =? CODEC_H265)) with false by (unfold CODEC_H264, CODEC_H265 in *; lia).
    destruct (flag / 16 =? 5) eqn:E5; [|lia]. eexists. split; [reflexivity|].
    unfold flv_view. cbn [p_stream p_flags]. rewrite E5. reflexivity.
  - rewrite Hty. cbn [Z.eqb Pos.eqb orb]. unfold flv_media in Hm. fold L in Hm.
    unfold spec_rtmp_script, flv_script_body. destruct (rm_body m) as [|y b] eqn:Eb.
    + exfalso. subst L. cbn in Hm. discriminate.
    + eexists. split; reflexivity.
Qed.

Lemma spec_rtmp_skip m : flv_media m = false -> spec_rtmp_msg m = RSkip.
Proof.
  unfold flv_media, spec_rtmp_msg. destruct (rm_body m) as [|x b] eqn:E.
  - intros _. destruct (rm_type m =? 9), (rm_type m =? 8), ((rm_type m =? 18) || (rm_type m =? 15)); reflexivity.
  - rewrite zlen_cons. pose proof (zlen_nonneg b). replace (negb (1 + zlen b =? 0)) with true by lia. cbn [andb].
    intros H0. destruct (rm_type m =? 9), (rm_type m =? 8); try discriminate. cbn [orb] in H0. rewrite H0. reflexivity.
Qed.

Lemma bridge_all cap e : forall ms prev fuel, Forall (bridgeable cap) ms -> (length ms < fuel)%nat -> zlen prev = 4 ->
  spec_flv_all fuel cap e (prev ++ concat (map flv_tag_text (filter flv_media ms))) =
  (map flv_view (fst (spec_rtmp_all ms e)), EErr e) /\ snd (spec_rtmp_all ms e) = Err e.
Proof.
  induction ms as [|m ms IH]; intros prev fuel HF Hfu Hp.
  - destruct fuel; [lia|]. cbn [filter map concat spec_rtmp_all fst snd]. rewrite app_nil_r.
    destruct prev as [|a [|b [|c [|d [|z prev]]]]]; try (cbn in Hp; lia).
    split; reflexivity.
  - cbn [filter]. pose proof (Forall_inv HF) as Hm. pose proof (Forall_inv_tail HF) as HF'. cbn [length] in Hfu.
    destruct (flv_media m) eqn:Em.
    + destruct fuel as [|f]; [lia|].
      destruct prev as [|a [|b [|c [|d prev]]]]; try (cbn in Hp; lia).
      assert (prev = []) as ->. { destruct prev; [reflexivity|]. rewrite !zlen_cons in Hp. pose proof (zlen_nonneg prev). lia. }
      cbn [map concat app].
      destruct (bridge_next cap e m a b c d (concat (map flv_tag_text (filter flv_media ms))) Hm Em) as (p & E1 & E2).
      cbn [spec_flv_all]. rewrite E2. cbn [spec_rtmp_all]. rewrite E1.
      destruct (IH (be 4 (zlen (rm_body m) + 11)) f HF' ltac:(lia) ltac:(rewrite zlen_be; reflexivity)) as [I1 I2].
      rewrite I1. destruct (spec_rtmp_all ms e) as [ps x]. cbn [fst snd map] in *. split; [reflexivity|exact I2].
    + cbn [spec_rtmp_all]. rewrite (spec_rtmp_skip m Em). apply IH; [exact HF'|lia|exact Hp].
Qed.

Lemma rtmp_write_shared_ok n : forall head p, 5 <= zlen head -> is_script p || is_audio p || is_video p = true ->
  fst (rtmp_write_shared n head p) = repeat (Ok (Some (rtmp_message p))) n /\
  snd (rtmp_write_shared (S n) head p) = push_front head (rtmp_full_prefix p).
Proof.
  induction n as [|n IH]; intros head p Hh Hk.
  - cbn [rtmp_write_shared fst repeat]. rewrite (rtmp_write_ok head p Hh Hk). split; reflexivity.
  - pose proof (zlen_full_prefix p) as Hp. destruct (push_front_drop head (rtmp_full_prefix p)) as [Hl _]; [lia|].
    remember (S n) as k. cbn [rtmp_write_shared]. rewrite (rtmp_write_ok head p Hh Hk).
    destruct (IH (push_front head (rtmp_full_prefix p)) p) as [I1 I2]; [lia|exact Hk|].
    split.
    + rewrite Heqk. cbn [rtmp_write_shared]. rewrite (rtmp_write_ok head p Hh Hk).
      destruct (rtmp_write_shared n _ p) as [rs h2]. cbn [fst] in *. rewrite I1. reflexivity.
    + destruct (rtmp_write_shared k _ p) as [rs h2]. cbn [snd] in *. rewrite I2.
      apply push_front_twice. lia.
Qed.

Lemma demux_of_message p : rtmp_transportable p -> spec_rtmp_msg (rtmp_message p) = RPacket p.
Proof.
  intros (Hb & Hl & Hd & Hmsg & Hk). destruct p as [msg st ty dts pts fl co data]. cbn [p_msg p_stream p_ptype p_dts p_pts p_flags p_codec p_data] in *.
  subst msg. unfold rtmp_codec_ok in Hk. cbn [p_msg p_stream p_ptype p_dts p_pts p_flags p_codec p_data] in Hk.
  assert (Hu : u32 dts = dts) by (apply Z.mod_small; lia).
  destruct Hk as [(-> & Hf & Hf1 & -> & Hty & ->)|[(-> & (Hf & Hc & ->) & Hf5 & Hty & Hcts)|[(-> & (Hf & Hc & ->) & Hf5 & -> & ->)|(-> & Hne & -> & -> & -> & ->)]]];
  cbn [p_msg p_stream p_ptype p_dts p_pts p_flags p_codec p_data] in *.
  - unfold spec_rtmp_msg, rtmp_message, rtmp_type_of, rtmp_full_prefix, rtmp_prefix, is_script, is_audio.
    cbn [p_msg p_stream p_ptype p_dts p_pts p_flags p_codec p_data rm_type rm_ts rm_body]. cbn. rewrite Hu.
    assert (Hu8 : u8 fl = fl) by (apply Z.mod_small; exact Hf). rewrite Hu8, Hf1.
    destruct Hty as [-> | ->]; reflexivity.
  - unfold spec_rtmp_msg, rtmp_message, rtmp_type_of, rtmp_full_prefix, rtmp_prefix, is_script, is_audio.
    cbn [p_msg p_stream p_ptype p_dts p_pts p_flags p_codec p_data rm_type rm_ts rm_body].
    assert (Hu8 : u8 fl = fl) by (apply Z.mod_small; exact Hf). rewrite Hu8, Hu.
    change ((AV_MESSAGE_DATA =? AV_MESSAGE_DATA) && (AV_STREAM_TYPE_VIDEO =? AV_STREAM_TYPE_SUBTITLE)) with false || idtac.
    change (AV_STREAM_TYPE_VIDEO =? AV_STREAM_TYPE_SUBTITLE) with false.
    change (AV_STREAM_TYPE_VIDEO =? AV_STREAM_TYPE_AUDIO) with false. cbn [andb]. rewrite ?andb_false_r.
    rewrite land_f0_50 by exact Hf. destruct (fl / 16 =? 5) eqn:E5; [lia|]. cbn [negb].
    rewrite cts_bytes_ok by lia. cbn [Z.eqb Pos.eqb app]. unfold spec_rtmp_video.
    replace (negb (fl mod 16 =? CODEC_H264) && negb (fl mod 16 =? CODEC_H265)) with false by (unfold CODEC_H264, CODEC_H265 in *; lia).
    rewrite E5. rewrite cts_seen_ok by lia. replace (rtmp_cts_seen (pts - dts)) with (pts - dts).
    2:{ symmetry. apply cts_seen_same; lia. }
    replace (dts + (pts - dts)) with pts by lia. do 2 f_equal. unfold is_video_seq, is_video.
    cbn [p_stream p_ptype p_msg p_codec]. destruct Hty as [-> | ->]; reflexivity.
  - unfold spec_rtmp_msg, rtmp_message, rtmp_type_of, rtmp_full_prefix, rtmp_prefix, is_script, is_audio.
    cbn [p_msg p_stream p_ptype p_dts p_pts p_flags p_codec p_data rm_type rm_ts rm_body].
    assert (Hu8 : u8 fl = fl) by (apply Z.mod_small; exact Hf). rewrite Hu8, Hu.
    change (AV_STREAM_TYPE_VIDEO =? AV_STREAM_TYPE_SUBTITLE) with false.
    change (AV_STREAM_TYPE_VIDEO =? AV_STREAM_TYPE_AUDIO) with false. cbn [andb]. rewrite ?andb_false_r.
    rewrite land_f0_50 by exact Hf. destruct (fl / 16 =? 5) eqn:E5; [|lia]. cbn [negb].
    cbn [Z.eqb Pos.eqb app]. unfold spec_rtmp_video.
    replace (negb (fl mod 16 =? CODEC_H264) && negb (fl mod 16 =? CODEC_H265)) with false by (unfold CODEC_H264, CODEC_H265 in *; lia).
    rewrite E5. reflexivity.
  - unfold spec_rtmp_msg, rtmp_message, rtmp_type_of, rtmp_full_prefix, is_script.
    cbn [p_msg p_stream p_ptype p_dts p_pts p_flags p_codec p_data rm_type rm_ts rm_body]. cbn. rewrite Hu.
    unfold spec_rtmp_script. destruct data; [congruence|reflexivity].
Qed.
