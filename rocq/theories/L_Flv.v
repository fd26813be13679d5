(** Proofs about the FLV demuxer and muxer. *)
From Verif Require Import Base M_IO S_IO L_IO M_Packet M_Flv S_Flv.

(** ** Reader state with a known stream *)
Record at_ (r : breader) (cap e : Z) (s : list Z) (n : Z) : Prop := mk_at {
  at_ok : br_ok r; at_str : br_stream r = s; at_buf : n <= buffered r;
  at_cap : ab_cap (br_buf r) = cap; at_err : br_err r = e; at_rw : ab_rw (br_buf r) = true }.

Lemma at_skip r cap e s n k : at_ r cap e s n -> 0 <= k <= n ->
  at_ (rdskip r k) cap e (drop k s) (n - k).
Proof.
  intros [H1 H2 H3 H4 H5 H6] Hk. destruct (rdskip_step r k H1 ltac:(lia)) as [A B C D E F].
  constructor; try congruence; lia.
Qed.
Lemma at_weaken r cap e s n m : at_ r cap e s n -> m <= n -> at_ r cap e s m.
Proof. intros [H1 H2 H3 H4 H5 H6] Hm. constructor; try assumption; lia. Qed.

Lemma at_rd8 r cap e x s n : at_ r cap e (x :: s) n -> 1 <= n ->
  lift rd8 r = (Ok x, rdskip r 1) /\ at_ (rdskip r 1) cap e s (n - 1).
Proof.
  intros H Hn. split; [|apply (at_skip _ _ _ _ _ 1 H); lia].
  destruct H as [H1 H2 H3 H4 H5 H6]. unfold lift. rewrite rd8_step by (auto; lia).
  rewrite H2, take_cons, take_0 by lia. unfold bev; cbn [fold_left]. reflexivity.
Qed.
Lemma at_rd24 r cap e a b c s n : at_ r cap e (a :: b :: c :: s) n -> bytes (a :: b :: c :: s) -> 3 <= n ->
  lift rd24 r = (Ok (bev [a; b; c]), rdskip r 3) /\ at_ (rdskip r 3) cap e s (n - 3).
Proof.
  intros H Hb Hn. split; [|apply (at_skip _ _ _ _ _ 3 H); lia].
  destruct H as [H1 H2 H3 H4 H5 H6]. unfold lift. rewrite rd24_step by (auto; try lia; rewrite H2; exact Hb).
  rewrite H2. reflexivity.
Qed.
Lemma at_rd32 r cap e a b c d s n : at_ r cap e (a :: b :: c :: d :: s) n -> bytes (a :: b :: c :: d :: s) -> 4 <= n ->
  lift rd32 r = (Ok (bev [a; b; c; d]), rdskip r 4) /\ at_ (rdskip r 4) cap e s (n - 4).
Proof.
  intros H Hb Hn. split; [|apply (at_skip _ _ _ _ _ 4 H); lia].
  destruct H as [H1 H2 H3 H4 H5 H6]. unfold lift. rewrite rd32_step by (auto; try lia; rewrite H2; exact Hb).
  rewrite H2. reflexivity.
Qed.
Lemma at_rdbytes r cap e s n k : at_ r cap e s n -> 0 <= k <= n ->
  lift (fun r => rdbytes r k) r = (Ok (take k s), rdskip r k) /\ at_ (rdskip r k) cap e (drop k s) (n - k).
Proof.
  intros H Hk. split; [|apply (at_skip _ _ _ _ _ k H); lia].
  destruct H as [H1 H2 H3 H4 H5 H6]. unfold lift.
  destruct (rdbytes_ok r k H1) as [-> _]; [unfold buffered in *; lia|]. rewrite H2. reflexivity.
Qed.
Lemma at_acquire r cap e s n k : at_ r cap e s n -> 0 <= k ->
  (cap < k -> exists r1, macquire k r = (Err ERROR_IO_BUFFER_FULL, r1)) /\
  (k <= cap -> zlen s < k -> exists r1, macquire k r = (Err e, r1)) /\
  (k <= cap -> k <= zlen s -> exists r1, macquire k r = (Ok tt, r1) /\ at_ r1 cap e s k).
Proof.
  intros [H1 H2 H3 H4 H5 H6] Hk. subst s cap e.
  destruct (acquire_ok r k H1 Hk H6) as (x & r1 & Ha & A1 & A2 & A3 & A4 & A5 & A6 & A7 & A8).
  unfold macquire. rewrite Ha. repeat split; intros.
  - rewrite A8 by lia. eauto.
  - rewrite A7 by lia. eauto.
  - destruct A6 as [-> A6]; [lia|lia|]. exists r1. split; [reflexivity|]. constructor; assumption.
Qed.

(** Reads that may run past the received bytes: some value, or out of the
    allocation. *)
Lemma rd8_any r : (exists v, lift rd8 r = (Ok v, rdskip r 1)) \/ lift rd8 r = (UB, r).
Proof.
  unfold lift, rd8. destruct (nthz _ _) as [v|]; [left; exists v; reflexivity|right; reflexivity].
Qed.
Lemma rd24_any r : (exists v, lift rd24 r = (Ok v, rdskip r 3)) \/ lift rd24 r = (UB, r).
Proof.
  unfold lift, rd24, rd16, rd8, rdskip. cbn [ab_skip br_buf ab_data ab_ptr bind].
  destruct (nthz _ _) as [v|]; [|right; reflexivity]. cbn [bind snd fst br_buf ab_skip ab_data ab_ptr].
  destruct (nthz _ (_ + 1)) as [v1|]; [|right; reflexivity]. cbn [bind snd fst br_buf ab_skip ab_data ab_ptr br_io].
  destruct (nthz _ (_ + 1)) as [v2|]; [|right; reflexivity]. cbn [bind snd fst br_buf ab_skip ab_data ab_ptr br_io].
  left. eexists. f_equal. unfold ab_skip; cbn. f_equal. f_equal. lia.
Qed.

(** ** Bit facts *)
Lemma land_f0 f : Z.land f 0xf0 = 16 * ((f / 16) mod 16).
Proof.
  replace 0xf0 with (Z.shiftl 15 4) by reflexivity.
  change (16 * ((f / 16) mod 16)) with (2 ^ 4 * ((f / 2 ^ 4) mod 2 ^ 4)).
  rewrite <- (shiftr_div f 4) by lia. rewrite <- (land_ones_mod _ 4 15) by (reflexivity || lia).
  rewrite Z.mul_comm, <- shiftl_mul by lia.
  apply Z.bits_inj'; intros i Hi. rewrite Z.land_spec.
  destruct (Z_lt_dec i 4).
  - rewrite !Z.shiftl_spec_low by lia. apply andb_false_r.
  - rewrite !Z.shiftl_spec_high by lia. rewrite Z.land_spec, Z.shiftr_spec by lia. f_equal. f_equal. lia.
Qed.
Lemma shiftr_f0 f : byte f -> Z.shiftr (Z.land f 0xf0) 4 = f / 16.
Proof.
  intros [H1 H2]. rewrite land_f0, shiftr_div by lia. change (2 ^ 4) with 16.
  rewrite Z.mul_comm, Z.div_mul by lia. apply Z.mod_small. zify_divmod; lia.
Qed.
Lemma land_0f f : Z.land f 0x0f = f mod 16.
Proof. apply (land_ones_mod f 4); reflexivity || lia. Qed.
Lemma land_f0_50 f : byte f -> (Z.land f 0xf0 =? 0x50) = (f / 16 =? 5).
Proof. intros [H1 H2]. rewrite land_f0. rewrite Z.mod_small by (zify_divmod; lia). lia. Qed.
Lemma land_f0_50' f : (Z.land f 0xf0 =? 0x50) = flv_video_command f.
Proof. rewrite land_f0. unfold flv_video_command. lia. Qed.

(** Sign extension of 24-bit values. *)
Lemma flv_cts_sign v : 0 <= v < 2 ^ 24 -> flv_cts v = flv_sign24 v.
Proof.
  intros Hv. unfold flv_cts, flv_sign24.
  (* v + 0xff800000 mod 2^32, with bits 23..31 flipped *)
  assert (Hx : forall w, 0 <= w < 2 ^ 32 ->
     Z.lxor w 0xff800000 = (511 - w / 2 ^ 23) * 2 ^ 23 + w mod 2 ^ 23).
  { intros w Hw.
    rewrite (Z.div_mod w (2 ^ 23)) at 1 by lia.
    rewrite (Z.mul_comm (2 ^ 23)).
    pose proof (Z.mod_pos_bound w (2 ^ 23) ltac:(lia)) as Hm.
    rewrite <- (lor_add (w / 2 ^ 23)) by lia.
    replace 0xff800000 with (511 * 2 ^ 23) by reflexivity.
    assert (Hq : 0 <= w / 2 ^ 23 < 2 ^ 9) by (zify_divmod; lia).
    rewrite <- (lor_add (511 - w / 2 ^ 23)) by lia.
    assert (H511 : Z.lxor (w / 2 ^ 23) 511 = 511 - w / 2 ^ 23).
    { change 511 with (Z.ones 9). rewrite <- Z.ldiff_ones_r_low || idtac.
      assert (Hs : forallb (fun n => Z.lxor (Z.of_nat n) (Z.ones 9) =? Z.ones 9 - Z.of_nat n) (seq 0 512) = true)
        by (vm_compute; reflexivity).
      rewrite forallb_forall in Hs. specialize (Hs (Z.to_nat (w / 2 ^ 23))).
      rewrite Z2Nat.id in Hs by lia. apply Z.eqb_eq. apply Hs. apply in_seq. lia. }
    rewrite <- H511. rewrite <- !shiftl_mul by lia.
    apply Z.bits_inj'; intros i Hi. rewrite Z.lxor_spec, !Z.lor_spec.
    destruct (Z_lt_dec i 23).
    - rewrite !Z.shiftl_spec_low by lia. cbn. rewrite xorb_false_r. reflexivity.
    - rewrite !Z.shiftl_spec_high by lia. rewrite Z.lxor_spec.
      assert (Hb : Z.testbit (w mod 2 ^ 23) i = false) by (apply Z.mod_pow2_bits_high; lia).
      rewrite Hb, !orb_false_r. reflexivity. }
  unfold u32. rewrite Hx by (apply Z.mod_pos_bound; lia).
  unfold s32. destruct (v <? 2 ^ 23) eqn:E.
  - rewrite (Z.mod_small (v + 0xff800000)) by lia.
    replace ((v + 0xff800000) / 2 ^ 23) with 511 by (apply Z.div_unique with v; lia).
    replace ((v + 0xff800000) mod 2 ^ 23) with v by (apply Z.mod_unique with 511; lia).
    rewrite Z.mod_small; lia.
  - replace ((v + 0xff800000) mod 2 ^ 32) with (v - 2 ^ 23) by (apply Z.mod_unique with 1; lia).
    replace ((v - 2 ^ 23) / 2 ^ 23) with 0 by (apply Z.div_unique with (v - 2 ^ 23); lia).
    replace ((v - 2 ^ 23) mod 2 ^ 23) with (v - 2 ^ 23) by (apply Z.mod_unique with 0; lia).
    replace ((511 - 0) * 2 ^ 23 + (v - 2 ^ 23) + 2 ^ 31) with (1 * 2 ^ 32 + (v + 2^31 - 2 ^ 24)) by lia.
    rewrite Z.add_comm, Z.mod_add by lia. rewrite Z.mod_small; lia.
Qed.

Lemma flv_dts_lor t0 t1 t2 t3 : bytes [t0; t1; t2; t3] ->
  Z.lor (bev [t0; t1; t2]) (Z.shiftl t3 24) = bev [t3; t0; t1; t2].
Proof.
  intros H. assert (Hl : 0 <= bev [t0; t1; t2] < 2 ^ 24).
  { apply (bev_range [t0; t1; t2]). inversion_clear H as [|? ? A1 B1]. inversion_clear B1 as [|? ? A2 B2].
    inversion_clear B2 as [|? ? A3 B3]. repeat constructor; apply A1 || apply A2 || apply A3. }
  rewrite Z.lor_comm, shiftl_mul by lia. rewrite lor_add by lia.
  rewrite (bev_cons t3). reflexivity.
Qed.

(** ** Reading one packet *)
Definition flv_step_ok (cap e : Z) (x : res pkt) (r1 : breader) (n : flv_next) : Prop :=
  match n with
  | FPacket p rest => x = Ok p /\ at_ r1 cap e rest 0
  | FErr c => x = Err c
  | FShort => x = UB \/ x = Err ERROR_FLV_TAG \/ x = Err ERROR_FLV_AUDIO_CODECID \/ x = Err ERROR_FLV_VIDEO_CODECID
  end.

Ltac mstep H := unfold mbind at 1; rewrite H; cbv iota beta.

Lemma s15 (s : list Z) : 15 <= zlen s ->
  exists p0 p1 p2 p3 ty s0 s1 s2 t0 t1 t2 t3 i0 i1 i2 s',
    s = p0 :: p1 :: p2 :: p3 :: ty :: s0 :: s1 :: s2 :: t0 :: t1 :: t2 :: t3 :: i0 :: i1 :: i2 :: s'.
Proof.
  intros H. do 15 (destruct s as [|? s]; [cbn in H; lia|]). do 16 eexists. reflexivity.
Qed.
Lemma spec_flv_next_short cap e s : zlen s < 15 -> spec_flv_next cap e s = FErr e.
Proof.
  intros H. do 15 (destruct s as [|? s]; [reflexivity|]). rewrite !zlen_cons in H. pose proof (zlen_nonneg s). lia.
Qed.

Lemma flv_read_packet_ok r cap e s n : at_ r cap e s n -> bytes s -> 15 <= cap ->
  exists x r1, flv_read_packet r = (x, r1) /\ flv_step_ok cap e x r1 (spec_flv_next cap e s).
Proof.
  intros H Hb Hcap. unfold flv_read_packet.
  destruct (at_acquire r cap e s n 15 H ltac:(lia)) as (_ & Ha2 & Ha3).
  destruct (Z_lt_dec (zlen s) 15) as [Hlt|Hge].
  { destruct (Ha2 Hcap Hlt) as [r1 Hr1]. exists (Err e), r1. mstep Hr1. split; [reflexivity|].
    rewrite spec_flv_next_short by exact Hlt. reflexivity. }
  destruct (Ha3 Hcap ltac:(lia)) as (r1 & Hr1 & A1). mstep Hr1. clear Ha2 Ha3 H Hr1 r.
  destruct (s15 s ltac:(lia)) as (p0 & p1 & p2 & p3 & ty & s0 & s1 & s2 & t0 & t1 & t2 & t3 & i0 & i1 & i2 & s' & ->).
  destruct (at_rd32 _ _ _ _ _ _ _ _ _ A1 Hb ltac:(lia)) as [E1 A2]. mstep E1.
  do 4 apply bytes_cons in Hb as [_ Hb].
  destruct (at_rd8 _ _ _ _ _ _ A2 ltac:(lia)) as [E2 A3]. mstep E2.
  apply bytes_cons in Hb as [_ Hb].
  destruct (at_rd24 _ _ _ _ _ _ _ _ A3 Hb ltac:(lia)) as [E3 A4]. mstep E3.
  assert (Hsz : 0 <= bev [s0; s1; s2] < 2 ^ 24).
  { apply (bev_range [s0; s1; s2]). apply (bytes_take 3) in Hb. exact Hb. }
  do 3 apply bytes_cons in Hb as [_ Hb].
  destruct (at_rd24 _ _ _ _ _ _ _ _ A4 Hb ltac:(lia)) as [E4 A5]. mstep E4.
  assert (Hdts := flv_dts_lor t0 t1 t2 t3 (bytes_take 4 _ Hb)).
  do 3 apply bytes_cons in Hb as [_ Hb].
  destruct (at_rd8 _ _ _ _ _ _ A5 ltac:(lia)) as [E5 A6]. mstep E5.
  apply bytes_cons in Hb as [_ Hb].
  destruct (at_rd24 _ _ _ _ _ _ _ _ A6 Hb ltac:(lia)) as [E6 A7]. mstep E6.
  do 3 apply bytes_cons in Hb as [_ Hb].
  rewrite Hdts. clear E1 E2 E3 E4 E5 E6 A2 A3 A4 A5 A6 Hdts Hge A1.
  set (dsz := bev [s0; s1; s2]) in *. set (dts := bev [t3; t0; t1; t2]).
  cbn [spec_flv_next]. fold dsz dts.
  destruct (at_acquire _ _ _ _ _ dsz A7 ltac:(lia)) as (Hb1 & Hb2 & Hb3).
  destruct (cap <? dsz) eqn:C1.
  { destruct Hb1 as [r2 Hr2]; [lia|]. mstep Hr2. eexists; eexists; split; [reflexivity|reflexivity]. }
  destruct (zlen s' <? dsz) eqn:C2.
  { destruct Hb2 as [r2 Hr2]; [lia|lia|]. mstep Hr2. eexists; eexists; split; [reflexivity|reflexivity]. }
  destruct Hb3 as (r2 & Hr2 & A8); [lia|lia|]. mstep Hr2. clear Hb1 Hb2 A7 Hr2.
  set (b := take dsz s'). set (rest := drop dsz s').
  assert (Hs' : s' = b ++ rest) by (symmetry; apply take_drop).
  assert (Hbl : zlen b = dsz) by (unfold b; rewrite zlen_take by lia; lia).
  clearbody b rest. rewrite Hs' in A8, Hb. clear Hs' C2 s'. clearbody dsz dts.
  (* the common tail *)
  assert (Hfin : forall r3 st ptype pts flags codec d,
    at_ r3 cap e (d ++ rest) (zlen d) -> d <> [] ->
    exists x r4,
      (if zlen d <=? 0 then merr ERROR_FLV_TAG else
       mbind (lift (fun r => rdbytes r (zlen d)))
         (fun d => mret (mkpkt AV_MESSAGE_DATA st ptype dts pts flags codec d))) r3 = (x, r4) /\
      x = Ok (mkpkt AV_MESSAGE_DATA st ptype dts pts flags codec d) /\ at_ r4 cap e rest 0).
  { intros r3 st ptype pts flags codec d A Hd.
    assert (0 < zlen d).
    { destruct d; [congruence|]. rewrite zlen_cons. pose proof (zlen_nonneg d). lia. }
    destruct (zlen d <=? 0) eqn:E; [lia|].
    destruct (at_rdbytes _ _ _ _ _ (zlen d) A ltac:(lia)) as [E1 A1]. mstep E1.
    eexists; eexists. split; [reflexivity|].
    rewrite take_app_exact by reflexivity. rewrite drop_app_exact in A1 by reflexivity.
    split; [reflexivity|]. apply (at_weaken _ _ _ _ _ 0 A1); lia. }
  destruct (ty =? 8) eqn:T8; [|destruct (ty =? 9) eqn:T9; [|destruct (ty =? 18) eqn:T18]].
  - (* audio *)
    unfold flv_audio_body. destruct b as [|f b].
    { change (zlen (@nil Z)) with 0 in Hbl. subst dsz.
      destruct (rd8_any r2) as [[v Hv]|Hv]; mstep Hv; [|eexists; eexists; split; [reflexivity|left; reflexivity]].
      destruct (negb _); [eexists; eexists; split; [reflexivity|cbn; tauto]|].
      destruct (rd8_any (rdskip r2 1)) as [[w Hw]|Hw]; mstep Hw; eexists; eexists; (split; [reflexivity|cbn; tauto]). }
    cbn [app] in A8, Hb. rewrite zlen_cons in Hbl.
    destruct (at_rd8 _ _ _ _ _ _ A8 ltac:(pose proof (zlen_nonneg b); lia)) as [E1 A9]. mstep E1.
    apply bytes_cons in Hb as [Hf Hb]. rewrite shiftr_f0 by exact Hf.
    destruct (negb (f / 16 =? CODEC_AAC)) eqn:Ec; [eexists; eexists; split; [reflexivity|reflexivity]|].
    destruct b as [|pt b].
    { change (zlen (@nil Z)) with 0 in Hbl. subst dsz.
      destruct (rd8_any (rdskip r2 1)) as [[w Hw]|Hw]; mstep Hw; eexists; eexists; (split; [reflexivity|cbn; tauto]). }
    cbn [app] in A9. rewrite zlen_cons in Hbl.
    destruct (at_rd8 _ _ _ _ _ _ A9 ltac:(pose proof (zlen_nonneg b); lia)) as [E2 A10]. mstep E2.
    replace (dsz - 2) with (zlen b) by lia.
    destruct b as [|x b].
    { eexists; eexists; split; [reflexivity|reflexivity]. }
    replace (f / 16) with CODEC_AAC by lia.
    apply (Hfin _ AV_STREAM_TYPE_AUDIO pt dts f CODEC_AAC (x :: b)); [|discriminate].
    apply (at_weaken _ _ _ _ _ _ A10). lia.
  - (* video *)
    unfold flv_video_body. destruct b as [|f b].
    { change (zlen (@nil Z)) with 0 in Hbl. subst dsz.
      destruct (rd8_any r2) as [[v Hv]|Hv]; mstep Hv; [|eexists; eexists; split; [reflexivity|left; reflexivity]].
      destruct (negb _ && negb _); [eexists; eexists; split; [reflexivity|cbn; tauto]|].
      destruct (negb _); [|eexists; eexists; split; [reflexivity|cbn; tauto]].
      destruct (rd8_any (rdskip r2 1)) as [[w Hw]|Hw]; mstep Hw; [|eexists; eexists; (split; [reflexivity|cbn; tauto])].
      destruct (rd24_any (rdskip (rdskip r2 1) 1)) as [[u Hu]|Hu]; mstep Hu; eexists; eexists; (split; [reflexivity|cbn; tauto]). }
    cbn [app] in A8, Hb. rewrite zlen_cons in Hbl.
    destruct (at_rd8 _ _ _ _ _ _ A8 ltac:(pose proof (zlen_nonneg b); lia)) as [E1 A9]. mstep E1.
    apply bytes_cons in Hb as [Hf Hb]. rewrite land_0f, land_f0_50 by exact Hf.
    destruct (negb (f mod 16 =? CODEC_H264) && negb (f mod 16 =? CODEC_H265)) eqn:Ec;
      [eexists; eexists; split; [reflexivity|reflexivity]|].
    destruct (f / 16 =? 5) eqn:Ef; cbn [negb].
    + replace (dsz - 1) with (zlen b) by lia.
      destruct b as [|x b].
      { eexists; eexists; split; [reflexivity|reflexivity]. }
      apply (Hfin _ AV_STREAM_TYPE_VIDEO 0 0 f (f mod 16) (x :: b)); [|discriminate].
      apply (at_weaken _ _ _ _ _ _ A9). lia.
    + destruct b as [|pt b].
      { change (zlen (@nil Z)) with 0 in Hbl.
        destruct (rd8_any (rdskip r2 1)) as [[w Hw]|Hw]; mstep Hw; [|eexists; eexists; (split; [reflexivity|cbn; tauto])].
        destruct (rd24_any (rdskip (rdskip r2 1) 1)) as [[u Hu]|Hu]; mstep Hu; [|eexists; eexists; (split; [reflexivity|cbn; tauto])].
        destruct (dsz - 1 - 4 <=? 0) eqn:El; [|lia]. eexists; eexists; (split; [reflexivity|cbn; tauto]). }
      cbn [app] in A9, Hb. rewrite zlen_cons in Hbl.
      destruct (at_rd8 _ _ _ _ _ _ A9 ltac:(pose proof (zlen_nonneg b); lia)) as [E2 A10]. mstep E2.
      apply bytes_cons in Hb as [Hpt Hb].
      assert (Hshort : zlen b < 3 -> exists x r3,
          (let! cts := lift rd24 in
           if dsz - 1 - 4 <=? 0 then merr ERROR_FLV_TAG
           else let! d := lift (fun r : breader => rdbytes r (dsz - 1 - 4)) in
                mret (mkpkt AV_MESSAGE_DATA AV_STREAM_TYPE_VIDEO pt dts (dts + flv_cts cts) f (f mod 16) d))
            (rdskip (rdskip r2 1) 1) = (x, r3) /\ flv_step_ok cap e x r3 FShort).
      { intros Hs. destruct (rd24_any (rdskip (rdskip r2 1) 1)) as [[u Hu]|Hu]; mstep Hu; [|eexists; eexists; (split; [reflexivity|cbn; tauto])].
        destruct (dsz - 1 - 4 <=? 0) eqn:El; [|lia]. eexists; eexists; (split; [reflexivity|cbn; tauto]). }
      destruct b as [|c0 b]; [apply Hshort; cbn; lia|].
      destruct b as [|c1 b]; [apply Hshort; cbn; lia|].
      destruct b as [|c2 b]; [apply Hshort; cbn; lia|]. clear Hshort.
      cbn [app] in A10, Hb. rewrite !zlen_cons in Hbl.
      destruct (at_rd24 _ _ _ _ _ _ _ _ A10 Hb ltac:(pose proof (zlen_nonneg b); lia)) as [E3 A11]. mstep E3.
      assert (Hcts : 0 <= bev [c0; c1; c2] < 2 ^ 24).
      { apply (bev_range [c0; c1; c2]). apply (bytes_take 3) in Hb. exact Hb. }
      rewrite flv_cts_sign by exact Hcts.
      replace (dsz - 1 - 4) with (zlen b) by lia.
      destruct b as [|x b].
      { eexists; eexists; split; [reflexivity|reflexivity]. }
      apply (Hfin _ AV_STREAM_TYPE_VIDEO pt (dts + flv_sign24 (bev [c0; c1; c2])) f (f mod 16) (x :: b)); [|discriminate].
      apply (at_weaken _ _ _ _ _ _ A11). lia.
  - unfold flv_script_body. rewrite <- Hbl. destruct b as [|x b].
    { eexists; eexists; split; [reflexivity|reflexivity]. }
    apply (Hfin _ AV_STREAM_TYPE_SUBTITLE 0 0 0 0 (x :: b)); [|discriminate].
    apply (at_weaken _ _ _ _ _ _ A8). lia.
  - eexists; eexists; split; [reflexivity|reflexivity].
Qed.

(** ** Whole streams *)

Lemma spec_flv_next_rest cap e s p rest : spec_flv_next cap e s = FPacket p rest ->
  exists seg, s = seg ++ rest /\ 16 <= zlen seg.
Proof.
  intros H. destruct (Z_lt_dec (zlen s) 15) as [Hl|Hg]; [rewrite spec_flv_next_short in H by exact Hl; discriminate|].
  destruct (s15 s ltac:(lia)) as (p0 & p1 & p2 & p3 & ty & s0 & s1 & s2 & t0 & t1 & t2 & t3 & i0 & i1 & i2 & s' & ->).
  cbn [spec_flv_next] in H. set (dsz := bev [s0; s1; s2]) in *. set (dts := bev [t3; t0; t1; t2]) in *.
  destruct (cap <? dsz) eqn:C1; [discriminate|]. destruct (zlen s' <? dsz) eqn:C2; [discriminate|].
  set (hd := [p0; p1; p2; p3; ty; s0; s1; s2; t0; t1; t2; t3; i0; i1; i2]).
  exists (hd ++ take dsz s').
  assert (Hr : rest = drop dsz s' /\ take dsz s' <> []).
  { destruct (ty =? 8); [|destruct (ty =? 9); [|destruct (ty =? 18); [|discriminate]]].
    - unfold flv_audio_body in H. destruct (take dsz s') as [|f [|t [|x d]]]; try discriminate;
        destruct (negb _); try discriminate; injection H as _ <-; split; [reflexivity|discriminate].
    - unfold flv_video_body in H. destruct (take dsz s') as [|f b]; [discriminate|].
      destruct (negb _ && negb _); [discriminate|].
      destruct (f / 16 =? 5).
      + destruct b; [discriminate|]. injection H as _ <-; split; [reflexivity|discriminate].
      + destruct b as [|? [|? [|? [|? [|? ?]]]]]; try discriminate. injection H as _ <-; split; [reflexivity|discriminate].
    - unfold flv_script_body in H. destruct (take dsz s') as [|f b]; [discriminate|].
      injection H as _ <-; split; [reflexivity|discriminate]. }
  destruct Hr as [-> Hne]. split.
  - rewrite <- app_assoc, take_drop. reflexivity.
  - rewrite zlen_app. change (zlen hd) with 15. destruct (take dsz s'); [congruence|].
    rewrite zlen_cons. pose proof (zlen_nonneg l). lia.
Qed.

Lemma spec_flv_next_bytes cap e s p rest : bytes s -> spec_flv_next cap e s = FPacket p rest -> bytes rest.
Proof.
  intros Hb H. destruct (spec_flv_next_rest _ _ _ _ _ H) as (seg & -> & _). apply bytes_app in Hb. tauto.
Qed.

Lemma flv_read_all_ok fuel : forall r cap e s, at_ r cap e s 0 -> bytes s -> 15 <= cap ->
  exists x r1, flv_read_all fuel r = (fst (spec_flv_all fuel cap e s), x, r1) /\
    flv_end_ok x (snd (spec_flv_all fuel cap e s)).
Proof.
  induction fuel as [|f IH]; intros r cap e s H Hb Hc; cbn [flv_read_all spec_flv_all].
  - eexists; eexists. split; reflexivity.
  - destruct (flv_read_packet_ok r cap e s 0 H Hb Hc) as (x & r1 & -> & Hx).
    destruct (spec_flv_next cap e s) as [p rest|c|] eqn:E; cbn [flv_step_ok] in Hx.
    + destruct Hx as [-> A]. destruct (IH r1 cap e rest A (spec_flv_next_bytes _ _ _ _ _ Hb E) Hc) as (y & r2 & -> & Hy).
      destruct (spec_flv_all f cap e rest) as [ps z]. cbn [fst snd] in *. eexists; eexists; split; [reflexivity|exact Hy].
    + subst x. eexists; eexists; split; reflexivity.
    + destruct Hx as [->|[->|[->| ->]]]; eexists; eexists; (split; [reflexivity|cbn; tauto]).
Qed.

Lemma spec_flv_all_fuel cap e fuel : forall s, zlen s < Z.of_nat fuel -> snd (spec_flv_all fuel cap e s) <> EFuel.
Proof.
  induction fuel as [|f IH]; intros s Hs; [pose proof (zlen_nonneg s); lia|].
  cbn [spec_flv_all]. destruct (spec_flv_next cap e s) as [p rest|c|] eqn:E; try discriminate.
  destruct (spec_flv_next_rest _ _ _ _ _ E) as (seg & -> & Hl). rewrite zlen_app in Hs.
  specialize (IH rest ltac:(lia)). destruct (spec_flv_all f cap e rest). exact IH.
Qed.

Lemma flv_read_header_ok r cap e h s n : at_ r cap e (h ++ s) n -> zlen h = 9 -> 9 <= cap ->
  take 3 h = [0x46; 0x4C; 0x56] ->
  exists f r1, nthz h 4 = Some f /\
    flv_read_header r = (Ok (mkpkt AV_MESSAGE_HEADER AV_STREAM_TYPE_NB 0 0 0 f 0 h), r1) /\ at_ r1 cap e s 0.
Proof.
  intros H Hh Hc Hm. unfold flv_read_header.
  destruct (at_acquire r cap e (h ++ s) n 9 H ltac:(lia)) as (_ & _ & Ha).
  destruct Ha as (r1 & Hr1 & A1); [lia|rewrite zlen_app; pose proof (zlen_nonneg s); lia|]. mstep Hr1.
  destruct (at_rdbytes _ _ _ _ _ 9 A1 ltac:(lia)) as [E1 A2]. mstep E1.
  rewrite take_app_exact by lia. rewrite drop_app_exact in A2 by lia.
  do 9 (destruct h as [|? h]; [cbn in Hh; lia|]).
  destruct h; [|rewrite !zlen_cons in Hh; pose proof (zlen_nonneg h); lia].
  cbn in Hm. injection Hm as -> -> ->. cbn [Z.eqb andb Pos.eqb].
  eexists; eexists. split; [reflexivity|]. split; [reflexivity|]. exact A2.
Qed.

Lemma br_new_at fill t : zlen fill < 2 ^ 62 -> nonempty_chunks (t_chunks t) ->
  at_ (br_new fill t) (zlen fill) (t_err t) (t_stream t) 0.
Proof.
  intros Hf Hn. destruct (br_new_ok fill t Hf Hn) as (H1 & H2 & H3 & H4 & H5).
  constructor; try assumption. unfold buffered, br_new; cbn. lia.
Qed.

(** ** Round trip: the spec reader inverts the layout *)
Lemma bev_be_small k v : 0 <= v < 256 ^ Z.of_nat k -> bev (be k v) = v.
Proof. intros H. rewrite bev_be. apply Z.mod_small. exact H. Qed.

Lemma be3 v : exists a b c, be 3 v = [a; b; c].
Proof. cbn. eauto. Qed.
Lemma be4 v : exists a b c d, be 4 v = [a; b; c; d].
Proof. cbn. eauto 6. Qed.

Lemma bytes_prefix p : bytes (flv_prefix p).
Proof.
  assert (Hm : forall x, byte (x mod 256)) by (intros; apply Z.mod_pos_bound; lia).
  unfold flv_prefix. destruct (_ =? _); [|destruct (_ =? _); [destruct (flv_video_command _)|]];
    repeat (apply bytes_cons; split; [apply Hm|]); try apply bytes_nil.
Qed.
Lemma zlen_prefix p : zlen (flv_prefix p) <= 5.
Proof.
  unfold flv_prefix. destruct (_ =? _); [|destruct (_ =? _); [destruct (flv_video_command _)|]]; cbn; lia.
Qed.

Lemma sign24_be c : - 2 ^ 23 <= c < 2 ^ 23 -> flv_sign24 (c mod 2 ^ 24) = c.
Proof.
  intros H. unfold flv_sign24. destruct (Z_lt_dec c 0).
  - replace (c mod 2 ^ 24) with (c + 2 ^ 24) by (apply Z.mod_unique with (-1); lia).
    destruct (_ <? _) eqn:E; lia.
  - rewrite Z.mod_small by lia. destruct (_ <? _) eqn:E; lia.
Qed.

Lemma spec_flv_next_tag cap e prev p rest :
  flv_transportable cap p -> cap < 2 ^ 24 ->
  spec_flv_next cap e (be 4 prev ++ flv_tag p ++ rest) = FPacket p rest.
Proof.
  intros (Hb & Hne & Hsz & Hd & Hmsg & Hk) Hcap. unfold flv_tag.
  destruct (be4 prev) as (a0 & a1 & a2 & a3 & ->).
  pose proof (zlen_nonneg (flv_body p)) as Hbl.
  assert (Hs : bev (be 3 (zlen (flv_body p))) = zlen (flv_body p)) by (apply bev_be_small; lia).
  assert (Ht : bev (be 1 (p_dts p / 2 ^ 24) ++ be 3 (p_dts p)) = p_dts p).
  { rewrite bev_app, !bev_be. change (zlen (be 3 (p_dts p))) with 3.
    change (256 ^ Z.of_nat 1) with 256. change (256 ^ Z.of_nat 3) with (2 ^ 24). change (256 ^ 3) with (2 ^ 24).
    rewrite (Z.mod_small (p_dts p / 2 ^ 24)) by (zify_divmod; lia).
    pose proof (Z.div_mod (p_dts p) (2 ^ 24) ltac:(lia)). lia. }
  destruct (be3 (zlen (flv_body p))) as (s0 & s1 & s2 & Es). rewrite Es in *.
  destruct (be3 (p_dts p)) as (t0 & t1 & t2 & Et). rewrite Et in *.
  rewrite be_1 in *. set (t3 := (p_dts p / 2 ^ 24) mod 256) in *. cbn [app] in Ht |- *.
  cbn [spec_flv_next]. rewrite Hs, Ht.
  destruct (cap <? zlen (flv_body p)) eqn:C1; [lia|].
  rewrite zlen_app. pose proof (zlen_nonneg rest).
  destruct (zlen (flv_body p) + zlen rest <? zlen (flv_body p)) eqn:C2; [lia|].
  rewrite take_app_exact, drop_app_exact by reflexivity.
  destruct p as [msg st pty dts pts flags codec data]. cbn [p_msg p_stream p_ptype p_dts p_pts p_flags p_codec p_data] in *.
  subst msg. unfold flv_body, flv_prefix, flv_type_byte. cbn [p_stream p_flags p_ptype p_pts p_dts p_data].
  clear Hsz Hs Ht Es Et C1 C2 Hbl.
  destruct Hk as [(-> & Hf & Hc & -> & Hp & ->)|[(-> & Hf & Hc & -> & Hn & Hp & Hcts)|[(-> & Hf & Hc & -> & Hn & -> & ->)|(-> & -> & -> & -> & ->)]]].
  - cbn [Z.eqb AV_STREAM_TYPE_AUDIO Pos.eqb app]. unfold flv_audio_body.
    unfold byte in Hf, Hp. rewrite !(Z.mod_small _ 256) by lia. rewrite Hc. cbn [Z.eqb Pos.eqb CODEC_AAC negb].
    destruct data; [congruence|]. reflexivity.
  - change (AV_STREAM_TYPE_VIDEO =? AV_STREAM_TYPE_AUDIO) with false.
    change (AV_STREAM_TYPE_VIDEO =? AV_STREAM_TYPE_VIDEO) with true. cbv iota.
    unfold byte in Hf, Hp. unfold flv_video_command.
    assert (Hm : (flags / 16) mod 16 = flags / 16) by (apply Z.mod_small; zify_divmod; lia). rewrite Hm.
    destruct (flags / 16 =? 5) eqn:E5; [lia|].
    change (9 =? 8) with false. change (9 =? 9) with true. cbv iota.
    rewrite !(Z.mod_small _ 256) by lia.
    assert (Hcb : bev (be 3 (pts - dts)) = (pts - dts) mod 2 ^ 24) by (rewrite bev_be; reflexivity).
    destruct (be3 (pts - dts)) as (c0 & c1 & c2 & Ec). rewrite Ec in *. cbn [app].
    unfold flv_video_body. destruct (negb _ && negb _) eqn:E6; [unfold CODEC_H264, CODEC_H265 in *; lia|].
    rewrite E5. destruct data; [congruence|]. rewrite Hcb, sign24_be by lia.
    do 2 f_equal. lia.
  - change (AV_STREAM_TYPE_VIDEO =? AV_STREAM_TYPE_AUDIO) with false.
    change (AV_STREAM_TYPE_VIDEO =? AV_STREAM_TYPE_VIDEO) with true. cbv iota.
    unfold byte in Hf. unfold flv_video_command.
    assert (Hm : (flags / 16) mod 16 = flags / 16) by (apply Z.mod_small; zify_divmod; lia). rewrite Hm, Hn.
    cbn [Z.eqb Pos.eqb].
    rewrite !(Z.mod_small _ 256) by lia. cbn [app].
    unfold flv_video_body. destruct (negb _ && negb _) eqn:E6; [unfold CODEC_H264, CODEC_H265 in *; lia|].
    rewrite Hn. cbn [Z.eqb Pos.eqb]. destruct data; [congruence|]. reflexivity.
  - change (AV_STREAM_TYPE_SUBTITLE =? AV_STREAM_TYPE_AUDIO) with false.
    change (AV_STREAM_TYPE_SUBTITLE =? AV_STREAM_TYPE_VIDEO) with false. cbv iota. cbn [Z.eqb Pos.eqb app].
    unfold flv_script_body. destruct data; [congruence|]. reflexivity.
Qed.

Lemma spec_flv_all_layout cap e ps : cap < 2 ^ 24 -> Forall (flv_transportable cap) ps ->
  forall prev, spec_flv_all (S (length ps)) cap e (flv_layout prev ps) = (ps, EErr e).
Proof.
  intros Hc. induction ps as [|p ps IH]; intros HF prev.
  - reflexivity.
  - inversion_clear HF as [|? ? Hp HF']. cbn [flv_layout length].
    remember (S (length ps)) as f. cbn [spec_flv_all].
    rewrite spec_flv_next_tag by assumption. rewrite IH by assumption. reflexivity.
Qed.

Lemma flv_layout_bytes cap ps : Forall (flv_transportable cap) ps -> forall prev, bytes (flv_layout prev ps).
Proof.
  induction 1 as [|p ps Hp HF IH]; intros prev; cbn [flv_layout]; [apply bytes_nil|].
  apply bytes_app. split; [apply be_bytes|]. apply bytes_app. split; [|apply IH].
  unfold flv_tag, flv_body. destruct Hp as (Hb & _).
  repeat (apply bytes_app; split; try apply be_bytes; try exact Hb; try apply bytes_prefix).
  - apply bytes_cons; split; [|apply bytes_nil]. unfold flv_type_byte. destruct (_ =? _); [|destruct (_ =? _)]; split; lia.
  - apply bytesb_spec. reflexivity.
Qed.

(** ** Muxer *)

Lemma land_ff000000 d : Z.shiftr (Z.land d 0xFF000000) 24 = (d / 2 ^ 24) mod 256.
Proof.
  rewrite Z.shiftr_land. change (Z.shiftr 0xFF000000 24) with 255.
  rewrite (land_ones_mod _ 8) by (reflexivity || lia). rewrite shiftr_div by lia. reflexivity.
Qed.

Lemma zlen_flv_tag p : zlen (flv_tag p) = 11 + zlen (flv_body p).
Proof. unfold flv_tag. rewrite !zlen_app, !zlen_be. cbn [zlen length]. change (zlen [flv_type_byte p]) with 1. change (zlen [0;0;0]) with 3. lia. Qed.

Lemma flv_patch_ok prev tag n rest : 0 <= n ->
  flv_patch_size (((be 4 prev ++ be 1 tag) ++ [0; 0; 0]) ++ rest) n = be 4 prev ++ be 1 tag ++ be 3 n ++ rest.
Proof.
  intros Hn. unfold flv_patch_size. rewrite <- app_assoc. rewrite <- (app_assoc (be 4 prev)).
  rewrite (app_assoc (be 4 prev) (be 1 tag)).
  rewrite take_app_exact by (rewrite zlen_app, !zlen_be; reflexivity).
  rewrite (app_assoc (be 4 prev ++ be 1 tag) [0; 0; 0] rest).
  rewrite drop_app_exact by (rewrite !zlen_app, !zlen_be; reflexivity).
  rewrite <- !app_assoc. f_equal. f_equal. f_equal.
  assert (Hb : [u8 (Z.shiftr n 16); u8 (Z.shiftr (Z.land n 0xFFFF) 8); u8 (Z.land n 0xFF)] = be 3 n).
  { cbn [be app]. unfold u8. rewrite !shiftr_div by lia. rewrite (land_ones_mod n 16) by (reflexivity || lia).
    rewrite (land_ones_mod n 8) by (reflexivity || lia).
    rewrite !Z.div_div by lia. change (256 * 256) with (2 ^ 16). change 256 with (2 ^ 8). f_equal. f_equal; [|f_equal].
    - zify_divmod; lia.
    - apply Z.mod_mod; lia. }
  exact Hb.
Qed.

Lemma flv_write_packet_ok m p out :
  flv_known p = true -> flv_kept m p = true -> zlen (flv_body p) < 2 ^ 24 ->
  flv_write_packet m p (mksink [] out) =
    (Ok tt, with_prev m (zlen (flv_tag p)), mksink [] (out ++ be 4 (fm_prev m) ++ flv_tag p)).
Proof.
  intros Hk Hf Hl. unfold flv_write_packet.
  assert (Ht : flv_tag_type (p_stream p) = Some (flv_type_byte p)).
  { unfold flv_tag_type, flv_type_byte, flv_known in *.
    unfold AV_STREAM_TYPE_VIDEO, AV_STREAM_TYPE_AUDIO, AV_STREAM_TYPE_SUBTITLE in *.
    destruct (p_stream p =? 0) eqn:E0; destruct (p_stream p =? 1) eqn:E1; try lia; try reflexivity.
    destruct (p_stream p =? 2) eqn:E2; [reflexivity|discriminate]. }
  rewrite Ht. unfold flv_kept in Hf. apply negb_true_iff in Hf. rewrite Hf.
  rewrite wr32_ok by (cbn; lia). cbn [bind bw_out bw_cap app].
  rewrite wr8_ok by (cbn [bw_out bw_cap]; rewrite ?zlen_app, ?zlen_be; cbn; lia). cbn [bind bw_out bw_cap].
  rewrite wr_raw_ok by (cbn [bw_out bw_cap]; rewrite ?zlen_app, ?zlen_be; cbn; lia). cbn [bind bw_out bw_cap].
  rewrite wr24_ok by (cbn [bw_out bw_cap]; rewrite ?zlen_app, ?zlen_be; cbn; lia). cbn [bind bw_out bw_cap].
  rewrite wr8_ok by (cbn [bw_out bw_cap]; rewrite ?zlen_app, ?zlen_be; cbn; lia). cbn [bind bw_out bw_cap].
  rewrite wr24_ok by (cbn [bw_out bw_cap]; rewrite ?zlen_app, ?zlen_be; cbn; lia). cbn [bind bw_out bw_cap].
  rewrite (land_ones_mod (p_dts p) 24) by (reflexivity || lia).
  rewrite land_ff000000.
  rewrite (be_mod 3 (p_dts p) : be 3 (p_dts p mod 2 ^ 24) = _).
  rewrite (be_mod 1 (p_dts p / 2 ^ 24) : be 1 ((p_dts p / 2 ^ 24) mod 256) = _).
  set (H0 := ((be 4 (fm_prev m) ++ be 1 (flv_type_byte p)) ++ [0; 0; 0])).
  set (T := be 3 (p_dts p) ++ be 1 (p_dts p / 2 ^ 24) ++ [0; 0; 0]).
  assert (HT : ((H0 ++ be 3 (p_dts p)) ++ be 1 (p_dts p / 2 ^ 24)) ++ be 3 0 = H0 ++ T).
  { unfold T. rewrite <- !app_assoc. reflexivity. }
  rewrite HT. assert (HlT : zlen (H0 ++ T) = 15).
  { unfold H0, T. rewrite !zlen_app, !zlen_be. reflexivity. }
  assert (Hcommon : forall pre, flv_prefix p = pre ->
    (let '(ok1, s1) := sk_write (mksink [] out)
         (flv_patch_size (bw_out (mkbw ((H0 ++ T) ++ pre) 29)) (u32 (zlen (p_data p) + zlen pre))) in
     if ok1 then
       let '(ok2, s2) := sk_write s1 (p_data p) in
       if ok2 then (Ok tt, mkfm (u32 (11 + u32 (zlen (p_data p) + zlen pre))) (fm_fvideo m) (fm_faudio m) (fm_fmeta m), s2)
       else (Err ERROR_SOCKET_WRITE, mkfm 11 (fm_fvideo m) (fm_faudio m) (fm_fmeta m), s2)
     else (Err ERROR_SOCKET_WRITE, mkfm 11 (fm_fvideo m) (fm_faudio m) (fm_fmeta m), s1)) =
    (Ok tt, with_prev m (zlen (flv_tag p)), mksink [] (out ++ be 4 (fm_prev m) ++ flv_tag p))).
  { intros pre Hpre.
    assert (Hbody : zlen (flv_body p) = zlen (p_data p) + zlen pre).
    { unfold flv_body. rewrite Hpre, zlen_app. lia. }
    pose proof (zlen_nonneg (flv_body p)).
    assert (Hu : u32 (zlen (p_data p) + zlen pre) = zlen (flv_body p)) by (unfold u32; rewrite Z.mod_small; lia).
    rewrite Hu. cbn [bw_out]. unfold sk_write; cbn [sk_oracle sk_out].
    unfold with_prev. rewrite zlen_flv_tag. unfold u32. rewrite Z.mod_small by lia.
    do 2 f_equal. rewrite <- !(app_assoc _ _ (p_data p)). f_equal.
    rewrite <- (app_assoc H0 T pre). unfold H0. rewrite flv_patch_ok by lia. unfold flv_tag, flv_body, T. rewrite Hpre.
    rewrite <- !app_assoc. f_equal. f_equal.
    rewrite be_1. rewrite Z.mod_small; [reflexivity|].
    unfold flv_type_byte. destruct (_ =? _); [|destruct (_ =? _)]; lia. }
  unfold is_script, is_audio, AV_STREAM_TYPE_VIDEO, AV_STREAM_TYPE_AUDIO, AV_STREAM_TYPE_SUBTITLE in *.
  unfold flv_prefix, AV_STREAM_TYPE_VIDEO, AV_STREAM_TYPE_AUDIO in Hcommon.
  unfold flv_known, AV_STREAM_TYPE_VIDEO, AV_STREAM_TYPE_AUDIO, AV_STREAM_TYPE_SUBTITLE in Hk.
  destruct (p_stream p =? 2) eqn:E2.
  { destruct (p_stream p =? 1) eqn:E1; [lia|]. destruct (p_stream p =? 0) eqn:E0; [lia|].
    specialize (Hcommon [] eq_refl). rewrite app_nil_r in Hcommon.
    change (zlen (@nil Z)) with 0 in Hcommon. rewrite Z.add_0_r in Hcommon. exact Hcommon. }
  destruct (p_stream p =? 1) eqn:E1.
  { rewrite wr8_ok by (cbn [bw_out bw_cap]; lia). cbn [bind bw_out bw_cap].
    rewrite wr8_ok by (cbn [bw_out bw_cap]; rewrite zlen_app, zlen_be; lia). cbn [bind bw_out bw_cap].
    rewrite !be_1. rewrite <- (app_assoc (H0 ++ T)). apply (Hcommon _ eq_refl). }
  destruct (p_stream p =? 0) eqn:E0; [|lia].
  rewrite wr8_ok by (cbn [bw_out bw_cap]; lia). cbn [bind bw_out bw_cap].
  rewrite land_f0_50'. destruct (flv_video_command (p_flags p)); cbn [negb].
  { rewrite !be_1. apply (Hcommon _ eq_refl). }
  rewrite wr8_ok by (cbn [bw_out bw_cap]; rewrite zlen_app, zlen_be; lia). cbn [bind bw_out bw_cap].
  rewrite wr24_ok by (cbn [bw_out bw_cap]; rewrite (zlen_app _ (be 1 (p_ptype p))), (zlen_app _ (be 1 (p_flags p))), !zlen_be; lia). cbn [bind bw_out bw_cap].
  rewrite !be_1. rewrite <- !(app_assoc (H0 ++ T)).
  specialize (Hcommon _ eq_refl). cbn [app] in Hcommon |- *.
  rewrite !zlen_cons, zlen_be in Hcommon.
  replace (zlen (p_data p) + (1 + (1 + Z.of_nat 3))) with (zlen (p_data p) + 1 + 4) in Hcommon by lia.
  exact Hcommon.
Qed.

Lemma flv_write_all_ok ps : forall m out,
  Forall (fun p => flv_known p = true /\ zlen (flv_body p) < 2 ^ 24) ps ->
  exists v, flv_write_all m ps (mksink [] out) =
    (Ok tt, with_prev m v, mksink [] (out ++ flv_layout (fm_prev m) (filter (flv_kept m) ps))).
Proof.
  induction ps as [|p ps IH]; intros m out HF; cbn [flv_write_all filter].
  - exists (fm_prev m). cbn [flv_layout]. rewrite app_nil_r. destruct m; reflexivity.
  - inversion_clear HF as [|? ? [Hk Hl] HF'].
    destruct (flv_kept m p) eqn:Ek.
    + rewrite flv_write_packet_ok by assumption.
      destruct (IH (with_prev m (zlen (flv_tag p))) (out ++ be 4 (fm_prev m) ++ flv_tag p) HF') as [v Hv].
      rewrite Hv. exists v. cbn [flv_layout].
      assert (Hke : forall q, flv_kept (with_prev m (zlen (flv_tag p))) q = flv_kept m q) by reflexivity.
      rewrite (filter_ext _ _ Hke). unfold with_prev at 2; cbn [fm_prev]. rewrite <- !app_assoc. reflexivity.
    + assert (Hw : flv_write_packet m p (mksink [] out) = (Ok tt, m, mksink [] out)).
      { unfold flv_write_packet. unfold flv_kept in Ek. apply negb_false_iff in Ek. rewrite Ek.
        destruct (flv_tag_type (p_stream p)) eqn:Et; [reflexivity|].
        unfold flv_known, flv_tag_type in *.
        destruct (_ =? AV_STREAM_TYPE_VIDEO); [discriminate|]. destruct (_ =? AV_STREAM_TYPE_AUDIO); [discriminate|].
        destruct (_ =? AV_STREAM_TYPE_SUBTITLE); discriminate. }
      rewrite Hw. apply IH. exact HF'.
Qed.

(** ** Slices *)
Lemma spec_flv_next_segment cap e s p rest : bytes s -> spec_flv_next cap e s = FPacket p rest ->
  exists seg, s = seg ++ rest /\ flv_segment seg p.
Proof.
  intros Hby H. destruct (Z_lt_dec (zlen s) 15) as [Hl|Hg]; [rewrite spec_flv_next_short in H by exact Hl; discriminate|].
  destruct (s15 s ltac:(lia)) as (p0 & p1 & p2 & p3 & ty & s0 & s1 & s2 & t0 & t1 & t2 & t3 & i0 & i1 & i2 & s' & ->).
  cbn [spec_flv_next] in H. 
  assert (Hbe : be 3 (bev [s0; s1; s2]) = [s0; s1; s2]).
  { apply (be_bev [s0; s1; s2]). do 5 apply bytes_cons in Hby as [_ Hby]. apply (bytes_take 3) in Hby. exact Hby. }
  assert (Hnn : 0 <= bev [s0; s1; s2]).
  { apply (bev_range [s0; s1; s2]). do 5 apply bytes_cons in Hby as [_ Hby]. apply (bytes_take 3) in Hby. exact Hby. }
  set (dsz := bev [s0; s1; s2]) in *. set (dts := bev [t3; t0; t1; t2]) in *.
  destruct (cap <? dsz) eqn:C1; [discriminate|]. destruct (zlen s' <? dsz) eqn:C2; [discriminate|].
  set (hd := [p0; p1; p2; p3; ty; s0; s1; s2; t0; t1; t2; t3; i0; i1; i2]).
  assert (Hsl : slice hd 5 3 = Some (be 3 dsz)) by (rewrite Hbe; reflexivity).
  assert (Hbl : zlen (take dsz s') = dsz) by (rewrite zlen_take by lia; lia).
  exists (hd ++ take dsz s').
  assert (Hgoal : forall q pre, take dsz s' = pre ++ p_data q -> p_data q <> [] ->
     zlen pre = (if p_stream q =? AV_STREAM_TYPE_AUDIO then 2
                   else if p_stream q =? AV_STREAM_TYPE_VIDEO then
                     (if p_flags q / 16 =? 5 then 1 else 5) else 0) ->
     FPacket q (drop dsz s') = FPacket p rest ->
     p0 :: p1 :: p2 :: p3 :: ty :: s0 :: s1 :: s2 :: t0 :: t1 :: t2 :: t3 :: i0 :: i1 :: i2 :: s' =
     (hd ++ take dsz s') ++ rest /\ flv_segment (hd ++ take dsz s') p).
  { intros q pre Ht Hne Hpl Hq. injection Hq as -> <-. split.
    - rewrite <- app_assoc, take_drop. reflexivity.
    - exists hd, pre. rewrite Ht. split; [reflexivity|]. split; [reflexivity|]. split; [exact Hne|].
      split; [|exact Hpl]. rewrite Hsl. do 2 f_equal. rewrite <- Hbl at 1. rewrite Ht, zlen_app. reflexivity. }
  destruct (ty =? 8); [|destruct (ty =? 9); [|destruct (ty =? 18); [|discriminate]]].
  - unfold flv_audio_body in H. destruct (take dsz s') as [|f [|t [|x d]]]; try discriminate;
      destruct (negb _); try discriminate. 
    refine (Hgoal _ [f; t] _ _ _ H); [reflexivity|discriminate|reflexivity].
  - unfold flv_video_body in H. destruct (take dsz s') as [|f b]; [discriminate|].
    destruct (negb _ && negb _); [discriminate|].
    destruct (f / 16 =? 5) eqn:E5.
    + destruct b; [discriminate|]. refine (Hgoal _ [f] _ _ _ H); [reflexivity|discriminate|cbn; rewrite E5; reflexivity].
    + destruct b as [|c [|c0 [|c1 [|c2 [|x d]]]]]; try discriminate.
      refine (Hgoal _ [f; c; c0; c1; c2] _ _ _ H); [reflexivity|discriminate|cbn; rewrite E5; reflexivity].
  - unfold flv_script_body in H. destruct (take dsz s') as [|f b]; [discriminate|].
    refine (Hgoal _ [] _ _ _ H); [reflexivity|discriminate|reflexivity].
Qed.

Lemma spec_flv_all_segments cap e fuel : forall s, bytes s ->
  exists segs rest, s = concat segs ++ rest /\ Forall2 flv_segment segs (fst (spec_flv_all fuel cap e s)).
Proof.
  induction fuel as [|f IH]; intros s Hb; cbn [spec_flv_all].
  - exists [], s. split; [reflexivity|constructor].
  - destruct (spec_flv_next cap e s) as [p rest|c|] eqn:E.
    + destruct (spec_flv_next_segment _ _ _ _ _ Hb E) as (seg & -> & Hs). apply bytes_app in Hb as [_ Hb].
      destruct (IH rest Hb) as (segs & r & Hr & HF). exists (seg :: segs), r.
      destruct (spec_flv_all f cap e rest) as [ps x]. cbn [fst] in *. split.
      * cbn [concat]. rewrite <- app_assoc, Hr. reflexivity.
      * constructor; assumption.
    + exists [], s. split; [reflexivity|constructor].
    + exists [], s. split; [reflexivity|constructor].
Qed.

(** ** Final statements *)
Lemma flv_demux_stream fill t h s fuel :
  15 <= zlen fill -> zlen fill < 2 ^ 62 -> nonempty_chunks (t_chunks t) ->
  t_stream t = h ++ s -> zlen h = 9 -> take 3 h = [0x46; 0x4C; 0x56] -> bytes s ->
  exists hp x r1,
    flv_demux fuel (br_new fill t) =
      (Ok hp, (fst (spec_flv_all fuel (zlen fill) (t_err t) s), x, r1)) /\ p_data hp = h /\
    flv_end_ok x (snd (spec_flv_all fuel (zlen fill) (t_err t) s)).
Proof.
  intros Hf Hf2 Hn Ht Hh Hm Hb. pose proof (br_new_at fill t Hf2 Hn) as A. rewrite Ht in A.
  destruct (flv_read_header_ok _ _ _ _ _ _ A Hh ltac:(lia) Hm) as (f & r1 & Hn4 & Hr & A1).
  destruct (flv_read_all_ok fuel r1 _ _ _ A1 Hb Hf) as (x & r2 & Hall & Hx).
  unfold flv_demux. rewrite Hr, Hall. eexists; exists x, r2. split; [reflexivity|]. split; [reflexivity|exact Hx].
Qed.

Lemma flv_roundtrip fill t ps :
  15 <= zlen fill < 2 ^ 24 -> Forall (flv_transportable (zlen fill)) ps ->
  nonempty_chunks (t_chunks t) ->
  forall v s1 m,
  flv_write_header None (mksink [] []) = (Ok tt, s1) ->
  flv_write_all flvmux0 ps s1 = (Ok tt, m, mksink [] v) ->
  t_stream t = v ->
  exists hp r1, flv_demux (S (length ps)) (br_new fill t) = (Ok hp, (ps, Err (t_err t), r1)).
Proof.
  intros Hf HF Hn v s1 m Hh Hw Ht.
  cbn [flv_write_header sk_write sk_oracle sk_out] in Hh. injection Hh as <-. cbn [app] in Hw.
  destruct (flv_write_all_ok ps flvmux0 flv_default_header) as [pv Hv].
  { eapply Forall_impl; [|exact HF]. intros p (H1 & H2 & H3 & H4 & H5 & H6). split; [|lia].
    unfold flv_known. destruct H6 as [(-> & _)|[(-> & _)|[(-> & _)|(-> & _)]]]; reflexivity. }
  rewrite Hv in Hw. injection Hw as <- <-.
  assert (Hk : filter (flv_kept flvmux0) ps = ps).
  { clear. induction ps as [|p ps IH]; [reflexivity|]. cbn [filter].
    unfold flv_kept at 1; cbn [flvmux0 fm_fvideo fm_faudio fm_fmeta]. rewrite !andb_false_r. cbn [orb negb]. f_equal. exact IH. }
  rewrite Hk in Ht. cbn [fm_prev flvmux0] in Ht.
  destruct (flv_demux_stream fill t flv_default_header (flv_layout 0 ps) (S (length ps)))
    as (hp & x & r1 & Hd & _ & Hx); try assumption; try lia; try reflexivity.
  { apply (flv_layout_bytes _ _ HF). }
  rewrite (spec_flv_all_layout (zlen fill) (t_err t) ps) in Hd, Hx by (assumption || lia).
  cbn [fst snd flv_end_ok] in *. subst x. eauto.
Qed.

(** ** Over-read: everything received sits in the buffer and fills it *)
Definition full_reader (e : Z) (data : list Z) (p : Z) : breader :=
  mkbr (mkab data p (zlen data) true) (Some (mktr [] e)).

Lemma full_at e pre s : zlen (pre ++ s) < 2 ^ 62 ->
  at_ (full_reader e (pre ++ s) (zlen pre)) (zlen (pre ++ s)) e s (zlen s).
Proof.
  intros H. pose proof (zlen_nonneg pre). pose proof (zlen_nonneg s). rewrite zlen_app in H.
  constructor; cbn; try reflexivity.
  - unfold br_ok, full_reader, ab_cap; cbn. rewrite zlen_app. repeat split; try lia. constructor.
  - unfold br_stream, br_pending, full_reader; cbn. rewrite app_nil_r, zlen_app.
    rewrite drop_app_exact by reflexivity. apply take_all. lia.
  - unfold buffered; cbn. rewrite zlen_app. lia.
Qed.
Lemma full_acquire e data p n : 0 <= p <= zlen data -> zlen data < 2 ^ 62 -> n <= zlen data - p ->
  macquire n (full_reader e data p) = (Ok tt, full_reader e data p).
Proof.
  intros Hp Hd Hn. unfold macquire, acquire, ab_size; cbn. unfold u64. rewrite Z.mod_small by lia.
  destruct (n <=? zlen data - p) eqn:E; [reflexivity|lia].
Qed.
Lemma full_skip e data p k : rdskip (full_reader e data p) k = full_reader e data (p + k).
Proof. reflexivity. Qed.

(** Reading a tag head and a body of [L] bytes of script data. *)
Lemma full_script e pre L (payload rest : list Z) : bytes (pre ++ payload ++ rest) ->
  zlen payload = L -> 0 < L < 2 ^ 24 -> zlen (pre ++ payload ++ rest) + 15 < 2 ^ 62 ->
  exists p, flv_read_packet (full_reader e (pre ++ ([0;0;0;0;18] ++ be 3 L ++ [0;0;0;0;0;0;0]) ++ payload ++ rest) (zlen pre)) =
    (Ok p, full_reader e (pre ++ ([0;0;0;0;18] ++ be 3 L ++ [0;0;0;0;0;0;0]) ++ payload ++ rest) (zlen pre + 15 + L)).
Proof.
  intros Hb HL Hr Hd.
  set (head := [0;0;0;0;18] ++ be 3 L ++ [0;0;0;0;0;0;0]).
  assert (Hhl : zlen head = 15) by reflexivity.
  set (data := pre ++ head ++ payload ++ rest).
  assert (Hdl : zlen data = zlen pre + 15 + L + zlen rest) by (unfold data; rewrite !zlen_app; lia).
  assert (Hbig : zlen data < 2 ^ 62) by (rewrite !zlen_app in Hd; lia).
  pose proof (zlen_nonneg pre). pose proof (zlen_nonneg rest).
  assert (Hbs : bytes (head ++ payload ++ rest)).
  { apply bytes_app in Hb as [_ Hb]. apply bytes_app. split; [|exact Hb].
    unfold head. apply bytes_app. split; [apply bytesb_spec; reflexivity|]. apply bytes_app.
    split; [apply be_bytes|apply bytesb_spec; reflexivity]. }
  pose proof (full_at e pre (head ++ payload ++ rest) Hbig) as A. fold data in A.
  unfold flv_read_packet.
  assert (E0 : macquire 15 (full_reader e data (zlen pre)) = (Ok tt, full_reader e data (zlen pre)))
    by (apply full_acquire; lia).
  mstep E0. clear E0. rewrite zlen_app in A. rewrite Hhl in A.
  pose proof (zlen_nonneg (payload ++ rest)) as Hpr. rewrite zlen_app, HL in Hpr.
  assert (HbL : bev (be 3 L) = L) by (apply bev_be_small; lia).
  unfold head in A, Hbs. destruct (be3 L) as (l0 & l1 & l2 & El). rewrite El in *. cbn [app] in A, Hbs.
  destruct (at_rd32 _ _ _ _ _ _ _ _ _ A Hbs ltac:(rewrite zlen_app; lia)) as [E1 A2]. mstep E1.
  do 4 apply bytes_cons in Hbs as [_ Hbs].
  destruct (at_rd8 _ _ _ _ _ _ A2 ltac:(rewrite zlen_app; lia)) as [E2 A3]. mstep E2.
  apply bytes_cons in Hbs as [_ Hbs].
  destruct (at_rd24 _ _ _ _ _ _ _ _ A3 Hbs ltac:(rewrite zlen_app; lia)) as [E3 A4]. mstep E3.
  do 3 apply bytes_cons in Hbs as [_ Hbs].
  destruct (at_rd24 _ _ _ _ _ _ _ _ A4 Hbs ltac:(rewrite zlen_app; lia)) as [E4 A5]. mstep E4.
  do 3 apply bytes_cons in Hbs as [_ Hbs].
  destruct (at_rd8 _ _ _ _ _ _ A5 ltac:(rewrite zlen_app; lia)) as [E5 A6]. mstep E5.
  apply bytes_cons in Hbs as [_ Hbs].
  destruct (at_rd24 _ _ _ _ _ _ _ _ A6 Hbs ltac:(rewrite zlen_app; lia)) as [E6 A7]. mstep E6.
  rewrite HbL. clear - A7 Hdl HL Hr H H0 Hbig.
  rewrite !full_skip in *. 
  replace (zlen pre + 4 + 1 + 3 + 3 + 1 + 3) with (zlen pre + 15) in * by lia.
  assert (E0 : macquire L (full_reader e data (zlen pre + 15)) = (Ok tt, full_reader e data (zlen pre + 15)))
    by (apply full_acquire; lia).
  mstep E0. cbn [Z.eqb Pos.eqb]. destruct (L <=? 0) eqn:EL; [lia|].
  destruct (at_rdbytes _ _ _ _ _ L A7) as [E1 A8]; [rewrite zlen_app; lia|].
  mstep E1. rewrite full_skip. eexists. reflexivity.
Qed.

(** An audio tag with an empty body as the last 15 bytes of a full buffer. *)
Lemma full_short_audio e pre : bytes pre -> zlen pre + 15 < 2 ^ 62 ->
  exists r1, flv_read_packet (full_reader e (pre ++ [0;0;0;0;8;0;0;0;0;0;0;0;0;0;0]) (zlen pre)) = (UB, r1).
Proof.
  intros Hb Hd. set (head := [0;0;0;0;8;0;0;0;0;0;0;0;0;0;0]). set (data := pre ++ head).
  assert (Hdl : zlen data = zlen pre + 15) by (unfold data; rewrite zlen_app; reflexivity).
  pose proof (zlen_nonneg pre).
  assert (Hbs : bytes head) by (apply bytesb_spec; reflexivity).
  pose proof (full_at e pre head ltac:(fold data; lia)) as A. fold data in A. change (zlen head) with 15 in A.
  unfold flv_read_packet.
  assert (E0 : macquire 15 (full_reader e data (zlen pre)) = (Ok tt, full_reader e data (zlen pre)))
    by (apply full_acquire; lia).
  mstep E0. clear E0. unfold head in A, Hbs.
  destruct (at_rd32 _ _ _ _ _ _ _ _ _ A Hbs ltac:(lia)) as [E1 A2]. mstep E1.
  do 4 apply bytes_cons in Hbs as [_ Hbs].
  destruct (at_rd8 _ _ _ _ _ _ A2 ltac:(lia)) as [E2 A3]. mstep E2.
  apply bytes_cons in Hbs as [_ Hbs].
  destruct (at_rd24 _ _ _ _ _ _ _ _ A3 Hbs ltac:(lia)) as [E3 A4]. mstep E3.
  do 3 apply bytes_cons in Hbs as [_ Hbs].
  destruct (at_rd24 _ _ _ _ _ _ _ _ A4 Hbs ltac:(lia)) as [E4 A5]. mstep E4.
  do 3 apply bytes_cons in Hbs as [_ Hbs].
  destruct (at_rd8 _ _ _ _ _ _ A5 ltac:(lia)) as [E5 A6]. mstep E5.
  apply bytes_cons in Hbs as [_ Hbs].
  destruct (at_rd24 _ _ _ _ _ _ _ _ A6 Hbs ltac:(lia)) as [E6 A7]. mstep E6.
  rewrite !full_skip in *.
  replace (zlen pre + 4 + 1 + 3 + 3 + 1 + 3) with (zlen pre + 15) in * by lia.
  change (bev [0; 0; 0]) with 0.
  assert (E0 : macquire 0 (full_reader e data (zlen pre + 15)) = (Ok tt, full_reader e data (zlen pre + 15)))
    by (apply full_acquire; lia).
  mstep E0. cbn [Z.eqb Pos.eqb].
  assert (Eu : lift rd8 (full_reader e data (zlen pre + 15)) = (UB, full_reader e data (zlen pre + 15))).
  { unfold lift, rd8, full_reader; cbn [br_buf ab_data ab_ptr].
    destruct (nthz data (zlen pre + 15)) eqn:En; [|reflexivity].
    apply nthz_some_range in En. lia. }
  mstep Eu. eexists. reflexivity.
Qed.

Lemma flv_overread cap e : 40 <= cap < 2 ^ 24 -> forall fill, zlen fill = cap ->
  exists s, bytes s /\ zlen s = cap /\ forall fuel, (2 <= fuel)%nat ->
    exists h ps r, flv_demux fuel (br_new fill (mktr [s] e)) = (Ok h, (ps, UB, r)).
Proof.
  intros Hcap fill Hfill.
  set (L := cap - 39). set (payload := repeat 0 (Z.to_nat L)).
  assert (HL : zlen payload = L) by (unfold payload; rewrite zlen_repeat; lia).
  set (tail := [0;0;0;0;8;0;0;0;0;0;0;0;0;0;0]).
  set (head := [0;0;0;0;18] ++ be 3 L ++ [0;0;0;0;0;0;0]).
  set (s := flv_default_header ++ head ++ payload ++ tail).
  assert (Hz : forall n, bytes (repeat 0 n)).
  { intros n. apply Forall_forall. intros x Hx. apply repeat_spec in Hx. subst. split; lia. }
  assert (Hb : bytes s).
  { unfold s. apply bytes_app. split; [apply bytesb_spec; reflexivity|]. apply bytes_app.
    split; [unfold head; apply bytes_app; split; [apply bytesb_spec; reflexivity|]; apply bytes_app; split; [apply be_bytes|apply bytesb_spec; reflexivity]|].
    apply bytes_app. split; [apply Hz|apply bytesb_spec; reflexivity]. }
  assert (Hl : zlen s = cap).
  { unfold s. rewrite !zlen_app, HL. change (zlen flv_default_header) with 9. change (zlen head) with 15.
    change (zlen tail) with 15. unfold L. lia. }
  exists s. split; [exact Hb|]. split; [exact Hl|]. intros fuel Hfuel.
  (* the header read pulls the whole chunk into the buffer *)
  assert (Hacq : macquire 9 (br_new fill (mktr [s] e)) = (Ok tt, full_reader e s 0)).
  { unfold macquire, acquire, br_new, ab_size, ab_cap_size, ab_norewind, ab_cap;
      cbn [br_buf br_io ab_data ab_ptr ab_end ab_rw]. rewrite Hfill.
    unfold u64. rewrite Z.sub_diag. cbn [Z.modulo]. rewrite Z.sub_0_r, (Z.mod_small cap) by lia.
    destruct (9 <=? 0 mod 2 ^ 64) eqn:E0; [cbn in E0; discriminate|]. clear E0.
    destruct (cap <? 9) eqn:E1; [lia|]. cbn [ab_data ab_ptr].
    rewrite Hfill, Z.sub_0_r, (Z.mod_small cap) by lia. rewrite E1.
    remember (Z.to_nat 9) as k. cbn [acquire_loop br_io br_buf].
    unfold ab_remain, ab_cap, ab_store, u64; cbn [ab_data ab_ptr ab_end ab_rw t_err t_chunks].
    rewrite Z.sub_0_r, Hfill, (Z.mod_small cap) by lia. unfold t_read; cbn [t_chunks t_err].
    destruct (cap <=? 0) eqn:E2; [lia|]. rewrite Hl. destruct (cap <=? cap) eqn:E3; [|lia].
    rewrite Hl. cbn [Z.leb Z.compare andb]. rewrite Z.add_0_l. unfold ab_cap; cbn [ab_data]. rewrite Hfill, E3.
    cbn [ab_data ab_ptr ab_end ab_rw br_buf]. unfold ab_size, u64; cbn [ab_ptr ab_end].
    rewrite Z.add_0_l, Z.sub_0_r, (Z.mod_small cap) by lia. rewrite E1.
    unfold full_reader. do 4 f_equal.
    - rewrite take_0 by lia. cbn [app]. rewrite drop_all by lia. rewrite app_nil_r. reflexivity.
    - rewrite Hl. reflexivity. }
  unfold flv_demux.
  assert (Hhead : exists h, flv_read_header (br_new fill (mktr [s] e)) = (Ok h, full_reader e s 9)).
  { unfold flv_read_header. mstep Hacq.
    assert (Er : lift (fun r => rdbytes r 9) (full_reader e s 0) = (Ok flv_default_header, full_reader e s 9)).
    { unfold lift, rdbytes, full_reader; cbn [br_buf ab_data ab_ptr br_io ab_skip].
      assert (Hsl : slice s 0 9 = Some flv_default_header) by (apply (slice_app [] flv_default_header); reflexivity).
      rewrite Hsl. reflexivity. }
    mstep Er. eexists. reflexivity. }
  destruct Hhead as [h Hh]. rewrite Hh.
  destruct fuel as [|[|fuel]]; [lia|lia|].
  destruct (full_script e flv_default_header L payload tail) as [p Hp]; try assumption.
  { apply bytes_app; split; [apply bytesb_spec; reflexivity|]. apply bytes_app; split; [apply Hz|apply bytesb_spec; reflexivity]. }
  { unfold L; lia. }
  { rewrite !zlen_app, HL. change (zlen flv_default_header) with 9. change (zlen tail) with 15. unfold L. lia. }
  fold head in Hp. fold s in Hp. change (zlen flv_default_header) with 9 in Hp.
  cbn [flv_read_all]. rewrite Hp.
  destruct (full_short_audio e (flv_default_header ++ head ++ payload)) as [r1 Hr1].
  { unfold s in Hb. rewrite !app_assoc in Hb. apply bytes_app in Hb as [Hb _]. rewrite <- app_assoc in Hb. exact Hb. }
  { rewrite !zlen_app, HL. change (zlen flv_default_header) with 9. change (zlen head) with 15. unfold L. lia. }
  fold tail in Hr1. rewrite <- !app_assoc in Hr1. fold s in Hr1.
  rewrite !zlen_app, HL in Hr1. change (zlen flv_default_header) with 9 in Hr1. change (zlen head) with 15 in Hr1.
  replace (9 + (15 + L)) with (9 + 15 + L) in Hr1 by lia. rewrite Hr1.
  eexists; eexists; eexists. reflexivity.
Qed.
