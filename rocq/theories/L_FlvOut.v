(** Lemmas for C240. *)
From Verif Require Import Base M_IO S_IO L_IO M_Packet M_Flv S_Flv L_Flv S_FlvOut.

(** ** Where unread data lies *)
Lemma acquire_loop_ptr fuel : forall r n x r1, acquire_loop fuel r n = (x, r1) -> ab_ptr (br_buf r1) = ab_ptr (br_buf r).
Proof.
  induction fuel as [|f IH]; intros r n x r1 H; cbn [acquire_loop] in H; [injection H as _ <-; reflexivity|].
  destruct (br_io r) as [t|]; [|injection H as _ <-; reflexivity].
  destruct (t_read t (ab_remain (br_buf r))) as [[d|c| |] t1]; try (injection H as _ <-; reflexivity).
  unfold ab_store in H. destruct ((0 <=? ab_end (br_buf r)) && (ab_end (br_buf r) + zlen d <=? ab_cap (br_buf r))); [|injection H as _ <-; reflexivity].
  cbv zeta in H. match type of H with (if ?c then _ else _) = _ => destruct c end.
  - apply IH in H. exact H.
  - injection H as _ <-. reflexivity.
Qed.
Lemma acquire_place r n r1 : br_ok r -> acquire r n = (Ok tt, r1) -> ab_ptr (br_buf r1) = place (ab_cap (br_buf r)) (ab_ptr (br_buf r)) n.
Proof.
  intros Hok H. destruct Hok as (Hp & He & Hb & _). unfold acquire in H.
  assert (Hsz : ab_size (br_buf r) = ab_end (br_buf r) - ab_ptr (br_buf r)) by (unfold ab_size, u64; apply Z.mod_small; lia).
  assert (Hn : ab_norewind (br_buf r) = ab_cap (br_buf r) - ab_ptr (br_buf r)) by (unfold ab_norewind, u64; apply Z.mod_small; lia).
  rewrite Hsz, Hn in H. unfold place.
  destruct (n <=? ab_end (br_buf r) - ab_ptr (br_buf r)) eqn:E1.
  { injection H as <-. destruct (ab_cap (br_buf r) - ab_ptr (br_buf r) <? n) eqn:E; [lia|reflexivity]. }
  destruct (ab_cap_size (br_buf r) <? n); [discriminate|].
  destruct (ab_cap (br_buf r) - ab_ptr (br_buf r) <? n) eqn:E2.
  - unfold ab_rewind in H. destruct (of_opt _) as [d|c| |]; try discriminate. cbn [bind] in H.
    destruct (ab_norewind _ <? n); [discriminate|]. apply acquire_loop_ptr in H. exact H.
  - rewrite Hn, E2 in H. apply acquire_loop_ptr in H. exact H.
Qed.

(** ** One tag in two parts *)
Definition flv_front : rdm (Z * Z * Z) :=
  let! _ := macquire 15 in
  let! _prev := lift rd32 in
  let! tag := lift rd8 in
  let! dsize := lift rd24 in
  let! dlow := lift rd24 in
  let! dhigh := lift rd8 in
  let! _sid := lift rd24 in
  let! _ := macquire dsize in
  mret (tag, dsize, Z.lor dlow (Z.shiftl dhigh 24)).
Definition flv_back (tag dsize dts : Z) : rdm pkt :=
  let finish st ptype pts flags codec size : rdm pkt :=
    if size <=? 0 then merr ERROR_FLV_TAG else
    let! d := lift (fun r => rdbytes r size) in
    mret (mkpkt AV_MESSAGE_DATA st ptype dts pts flags codec d) in
  if tag =? 8 then
    let! flags := lift rd8 in
    let codec := Z.shiftr (Z.land flags 0xf0) 4 in
    if negb (codec =? CODEC_AAC) then merr ERROR_FLV_AUDIO_CODECID else
    let! ptype := lift rd8 in
    finish AV_STREAM_TYPE_AUDIO ptype dts flags codec (dsize - 2)
  else if tag =? 9 then
    let! flags := lift rd8 in
    let ftype := Z.land flags 0xf0 in
    let codec := Z.land flags 0x0f in
    if negb (codec =? CODEC_H264) && negb (codec =? CODEC_H265) then merr ERROR_FLV_VIDEO_CODECID else
    if negb (ftype =? 0x50) then
      let! ptype := lift rd8 in
      let! cts := lift rd24 in
      finish AV_STREAM_TYPE_VIDEO ptype (dts + flv_cts cts) flags codec (dsize - 1 - 4)
    else finish AV_STREAM_TYPE_VIDEO 0 0 flags codec (dsize - 1)
  else if tag =? 18 then finish AV_STREAM_TYPE_SUBTITLE 0 0 0 0 dsize
  else merr ERROR_FLV_UNKNOWN_TAG_TYPE.
Lemma mbind_assoc {A B C} (m : rdm A) (f : A -> rdm B) (g : B -> rdm C) r : mbind (mbind m f) g r = mbind m (fun x => mbind (f x) g) r.
Proof. unfold mbind. destruct (m r) as [[a|c| |] r1]; reflexivity. Qed.
Lemma mbind_ext {A B} (m : rdm A) (f g : A -> rdm B) r : (forall a r1, f a r1 = g a r1) -> mbind m f r = mbind m g r.
Proof. intros H. unfold mbind. destruct (m r) as [[a|c| |] r1]; try reflexivity. apply H. Qed.
Lemma packet_parts r : flv_read_packet r = mbind flv_front (fun z => flv_back (fst (fst z)) (snd (fst z)) (snd z)) r.
Proof.
  unfold flv_read_packet, flv_front. do 8 (symmetry; rewrite mbind_assoc; symmetry; apply mbind_ext; clear r; intros ? r). reflexivity.
Qed.

(** ** The front part *)
Lemma front_ok r cap e s n : at_ r cap e s n -> bytes s -> 15 <= cap -> 15 <= zlen s -> tag_size s <= cap -> tag_size s <= zlen s - 15 ->
  exists dts r2, flv_front r = (Ok (nth 4 s 0, tag_size s, dts), r2) /\ at_ r2 cap e (drop 15 s) (tag_size s) /\
    ab_ptr (br_buf r2) = body_place cap (ab_ptr (br_buf r)) s.
Proof.
  intros H Hb Hcap Hl Hs1 Hs2. unfold flv_front.
  destruct (at_acquire r cap e s n 15 H ltac:(lia)) as (_ & _ & Ha3). destruct (Ha3 Hcap Hl) as (r1 & Hr1 & A1).
  assert (P1 : ab_ptr (br_buf r1) = place cap (ab_ptr (br_buf r)) 15).
  { rewrite <- (at_cap _ _ _ _ _ H). apply acquire_place; [exact (at_ok _ _ _ _ _ H)|exact Hr1]. }
  mstep Hr1. unfold body_place. rewrite <- P1. clear Ha3 H Hr1 P1 r.
  destruct (s15 s Hl) as (p0 & p1 & p2 & p3 & ty & s0 & s1 & s2 & t0 & t1 & t2 & t3 & i0 & i1 & i2 & s' & ->).
  change (tag_size _) with (bev [s0; s1; s2]) in *. change (drop 15 _) with s'. change (nth 4 _ 0) with ty.
  destruct (at_rd32 _ _ _ _ _ _ _ _ _ A1 Hb ltac:(lia)) as [E1 A2]. mstep E1.
  do 4 apply bytes_cons in Hb as [_ Hb].
  destruct (at_rd8 _ _ _ _ _ _ A2 ltac:(lia)) as [E2 A3]. mstep E2.
  apply bytes_cons in Hb as [_ Hb].
  destruct (at_rd24 _ _ _ _ _ _ _ _ A3 Hb ltac:(lia)) as [E3 A4]. mstep E3.
  assert (Hsz : 0 <= bev [s0; s1; s2] < 2 ^ 24).
  { apply (bev_range [s0; s1; s2]). apply (bytes_take 3) in Hb. exact Hb. }
  do 3 apply bytes_cons in Hb as [_ Hb].
  destruct (at_rd24 _ _ _ _ _ _ _ _ A4 Hb ltac:(lia)) as [E4 A5]. mstep E4.
  do 3 apply bytes_cons in Hb as [_ Hb].
  destruct (at_rd8 _ _ _ _ _ _ A5 ltac:(lia)) as [E5 A6]. mstep E5.
  apply bytes_cons in Hb as [_ Hb].
  destruct (at_rd24 _ _ _ _ _ _ _ _ A6 Hb ltac:(lia)) as [E6 A7]. mstep E6.
  rewrite !zlen_cons in Hs2.
  destruct (at_acquire _ _ _ _ _ (bev [s0; s1; s2]) A7 ltac:(lia)) as (_ & _ & Hb3).
  destruct Hb3 as (r2 & Hr2 & A8); [lia|lia|]. 
  assert (P2 : ab_ptr (br_buf r2) = place cap (ab_ptr (br_buf r1) + 15) (bev [s0; s1; s2])).
  { rewrite <- (at_cap _ _ _ _ _ A7).
    replace (ab_ptr (br_buf r1) + 15) with (ab_ptr (br_buf (rdskip (rdskip (rdskip (rdskip (rdskip (rdskip r1 4) 1) 3) 3) 1) 3))) by (cbn; lia).
    apply acquire_place; [exact (at_ok _ _ _ _ _ A7)|exact Hr2]. }
  mstep Hr2. eexists _, r2. split; [reflexivity|]. split; [exact A8|exact P2].
Qed.

(** ** The body *)
Lemma finish_ptr st ptype dts pts flags codec size r p r1 :
  (if size <=? 0 then merr ERROR_FLV_TAG else let! d := lift (fun r => rdbytes r size) in mret (mkpkt AV_MESSAGE_DATA st ptype dts pts flags codec d)) r = (Ok p, r1) ->
  ab_ptr (br_buf r1) = ab_ptr (br_buf r) + size.
Proof.
  destruct (size <=? 0); [discriminate|]. unfold mbind, lift, rdbytes. destruct (slice _ _ _) as [d|]; [|discriminate].
  unfold mret. intros H. injection H as _ <-. reflexivity.
Qed.
Lemma back_ptr tag dsize dts r p r1 : flv_back tag dsize dts r = (Ok p, r1) -> ab_ptr (br_buf r1) = ab_ptr (br_buf r) + dsize.
Proof.
  unfold flv_back. destruct (tag =? 8); [|destruct (tag =? 9); [|destruct (tag =? 18); [|discriminate]]]; intros H.
  - unfold mbind at 1 in H. destruct (rd8_any r) as [[v Hv]|Hv]; rewrite Hv in H; [|discriminate]. destruct (negb _) in H; [discriminate|].
    unfold mbind at 1 in H. destruct (rd8_any (rdskip r 1)) as [[w Hw]|Hw]; rewrite Hw in H; [|discriminate].
    apply finish_ptr in H. cbn in H. lia.
  - unfold mbind at 1 in H. destruct (rd8_any r) as [[v Hv]|Hv]; rewrite Hv in H; [|discriminate]. destruct (negb _ && negb _) in H; [discriminate|].
    destruct (negb _) in H; [|apply finish_ptr in H; cbn in H; lia].
    unfold mbind at 1 in H. destruct (rd8_any (rdskip r 1)) as [[w Hw]|Hw]; rewrite Hw in H; [|discriminate].
    unfold mbind at 1 in H. destruct (rd24_any (rdskip (rdskip r 1) 1)) as [[u Hu]|Hu]; rewrite Hu in H; [|discriminate].
    apply finish_ptr in H. cbn in H. lia.
  - apply finish_ptr in H. exact H.
Qed.

(** What the memory from the cursor on holds decides whether a read leaves it. *)
Definition ahead (r : breader) : list Z := drop (ab_ptr (br_buf r)) (ab_data (br_buf r)).
Lemma ahead_skip r k : 0 <= ab_ptr (br_buf r) -> 0 <= k -> ahead (rdskip r k) = drop k (ahead r).
Proof. intros H1 H2. unfold ahead, rdskip. cbn. rewrite drop_drop by lia. f_equal. lia. Qed.
Lemma rd8_ahead r : 0 <= ab_ptr (br_buf r) -> lift rd8 r = match ahead r with [] => (UB, r) | v :: _ => (Ok v, rdskip r 1) end.
Proof.
  intros H. unfold lift, rd8, ahead. replace (ab_ptr (br_buf r)) with (ab_ptr (br_buf r) + 0) at 1 by lia. rewrite <- nthz_drop by lia.
  destruct (drop (ab_ptr (br_buf r)) (ab_data (br_buf r))) as [|v l]; reflexivity.
Qed.
Lemma rd24_ahead r : 0 <= ab_ptr (br_buf r) -> fst (lift rd24 r) = UB <-> zlen (ahead r) < 3.
Proof.
  intros H. assert (E : forall i, 0 <= i -> nthz (ab_data (br_buf r)) (ab_ptr (br_buf r) + i) = nthz (ahead r) i) by (intros i Hi; unfold ahead; rewrite nthz_drop by lia; reflexivity).
  pose proof (E 0 ltac:(lia)) as E0. rewrite Z.add_0_r in E0.
  unfold lift, rd24, rd16, rd8. rewrite E0. destruct (ahead r) as [|a [|b [|c l]]] eqn:L.
  - split; [cbn; lia|reflexivity].
  - rewrite nthz_0. cbn [bind snd fst br_buf ab_skip ab_data ab_ptr]. rewrite (E 1) by lia. split; [cbn; lia|reflexivity].
  - rewrite nthz_0. cbn [bind snd fst br_buf ab_skip ab_data ab_ptr]. rewrite (E 1) by lia. rewrite nthz_cons by lia. change (1 - 1) with 0. rewrite nthz_0.
    cbn [bind snd fst br_buf ab_skip ab_data ab_ptr]. rewrite <- Z.add_assoc, (E (1 + 1)) by lia. split; [cbn; lia|reflexivity].
  - rewrite nthz_0. cbn [bind snd fst br_buf ab_skip ab_data ab_ptr]. rewrite (E 1) by lia. rewrite nthz_cons by lia. change (1 - 1) with 0. rewrite nthz_0.
    cbn [bind snd fst br_buf ab_skip ab_data ab_ptr]. rewrite <- Z.add_assoc, (E (1 + 1)) by lia. rewrite nthz_cons by lia. rewrite nthz_cons by lia. change (1 + 1 - 1 - 1) with 0. rewrite nthz_0.
    cbn [bind snd fst br_buf ab_skip ab_data ab_ptr]. rewrite !zlen_cons. pose proof (zlen_nonneg l). split; [discriminate|lia].
Qed.
Lemma codec_f0 v : Z.shiftr (Z.land v 0xf0) 4 = (v / 16) mod 16.
Proof. rewrite land_f0, Z.shiftr_div_pow2 by lia. change (2 ^ 4) with 16. rewrite Z.mul_comm, Z.div_mul; lia. Qed.
Lemma command_f0 v : (Z.land v 0xf0 =? 0x50) = ((v / 16) mod 16 =? 5).
Proof. rewrite land_f0. destruct (Z.eqb_spec ((v / 16) mod 16) 5); destruct (Z.eqb_spec (16 * ((v / 16) mod 16)) 0x50); try reflexivity; lia. Qed.
(** A body shorter than its codec prefix. *)
Lemma back_short tag dsize dts r : 0 <= ab_ptr (br_buf r) -> dsize < prefix_size tag -> (tag =? 8) || (tag =? 9) = true ->
  (tag = 9 -> 1 <= dsize -> forall f, nthz (ahead r) 0 = Some f -> (f / 16) mod 16 <> 5) ->
  fst (flv_back tag dsize dts r) = UB <-> runs_out tag (ahead r) = true.
Proof.
  intros Hp Hs Ht Hc. unfold flv_back, runs_out. unfold prefix_size in Hs. destruct (tag =? 8) eqn:T8; [|destruct (tag =? 9) eqn:T9; [|discriminate]].
  - unfold mbind at 1. rewrite rd8_ahead by exact Hp. destruct (ahead r) as [|f l1] eqn:L; [split; reflexivity|]. cbv zeta. rewrite codec_f0.
    change CODEC_AAC with 10. destruct ((f / 16) mod 16 =? 10); cbn [negb andb]; [|split; discriminate].
    unfold mbind at 1. rewrite rd8_ahead by (cbn; lia). rewrite ahead_skip, L by lia. rewrite drop_cons, drop_0 by lia.
    destruct l1 as [|w l2]; [split; reflexivity|]. rewrite zlen_cons. pose proof (zlen_nonneg l2).
    replace (dsize - 2 <=? 0) with true by lia. replace (1 + zlen l2 <? 1) with false by lia. split; discriminate.
  - unfold mbind at 1. rewrite rd8_ahead by exact Hp. destruct (ahead r) as [|f l1] eqn:L; [split; reflexivity|]. cbv zeta. rewrite land_0f, command_f0.
    change CODEC_H264 with 7. change CODEC_H265 with 12. rewrite <- negb_orb. destruct ((f mod 16 =? 7) || (f mod 16 =? 12)); cbn [negb andb]; [|split; discriminate].
    destruct ((f / 16) mod 16 =? 5) eqn:E5; cbn [negb andb].
    + assert (dsize < 1). { destruct (Z_lt_dec dsize 1) as [|K]; [assumption|]. exfalso. apply (Hc ltac:(lia) ltac:(lia) f); [reflexivity|lia]. }
      replace (dsize - 1 <=? 0) with true by lia. split; discriminate.
    + unfold mbind at 1. rewrite rd8_ahead by (cbn; lia). rewrite ahead_skip, L by lia. rewrite drop_cons, drop_0 by lia.
      destruct l1 as [|w l2]; [split; reflexivity|]. rewrite zlen_cons.
      pose proof (rd24_ahead (rdskip (rdskip r 1) 1) ltac:(cbn; lia)) as K. rewrite !ahead_skip, L in K by (cbn; lia). change (drop 1 (drop 1 (f :: w :: l2))) with l2 in K.
      unfold mbind at 1. destruct (lift rd24 (rdskip (rdskip r 1) 1)) as [[u|c| |] r3] eqn:Er; cbn [fst] in K.
      * replace (dsize - 1 - 4 <=? 0) with true by lia. destruct (1 + zlen l2 <? 4) eqn:E4; [|split; discriminate].
        exfalso. assert (@Ok Z u = UB) by (apply K; lia). discriminate.
      * destruct (1 + zlen l2 <? 4) eqn:E4; [|split; discriminate]. exfalso. assert (@Err Z c = UB) by (apply K; lia). discriminate.
      * split; [intros _; apply Z.ltb_lt; pose proof (proj1 K eq_refl); lia|reflexivity].
      * destruct (1 + zlen l2 <? 4) eqn:E4; [|split; discriminate]. exfalso. assert (@Fuel Z = UB) by (apply K; lia). discriminate.
Qed.

(** ** What the plain reading says *)
Lemma spec_sizes cap e s : (forall c, spec_flv_next cap e s <> FErr c) -> 15 <= zlen s /\ tag_size s <= cap /\ tag_size s <= zlen s - 15.
Proof.
  intros H. destruct (Z_lt_dec (zlen s) 15) as [Hl|Hg]; [exfalso; eapply H; apply spec_flv_next_short; exact Hl|].
  destruct (s15 s ltac:(lia)) as (p0 & p1 & p2 & p3 & ty & s0 & s1 & s2 & t0 & t1 & t2 & t3 & i0 & i1 & i2 & s' & ->).
  change (tag_size _) with (bev [s0; s1; s2]). cbn [spec_flv_next] in H. set (dsz := bev [s0; s1; s2]) in *. rewrite !zlen_cons in *.
  destruct (cap <? dsz) eqn:C1; [exfalso; eapply H; reflexivity|]. destruct (zlen s' <? dsz) eqn:C2; [exfalso; eapply H; reflexivity|]. lia.
Qed.
Lemma spec_short cap e s : bytes s -> spec_flv_next cap e s = FShort ->
  let ty := nth 4 s 0 in let b := take (tag_size s) (drop 15 s) in
  (ty =? 8) || (ty =? 9) = true /\ zlen b = tag_size s /\ zlen b < prefix_size ty /\ runs_out ty b = true /\
  (ty = 9 -> forall f, nthz b 0 = Some f -> (f / 16) mod 16 <> 5).
Proof.
  intros Hb H. cbv zeta. destruct (spec_sizes cap e s ltac:(intros c; rewrite H; discriminate)) as (H1 & H2 & H3).
  destruct (s15 s H1) as (p0 & p1 & p2 & p3 & ty & s0 & s1 & s2 & t0 & t1 & t2 & t3 & i0 & i1 & i2 & s' & ->).
  assert (Hsz : 0 <= bev [s0; s1; s2]) by (apply bytes_cons in Hb; do 4 (destruct Hb as [_ Hb]; apply bytes_cons in Hb); destruct Hb as [_ Hb]; pose proof (bev_range [s0; s1; s2] (bytes_take 3 _ Hb)); lia).
  change (tag_size _) with (bev [s0; s1; s2]) in *. change (drop 15 _) with s'. change (nth 4 _ 0) with ty. cbn [spec_flv_next] in H. set (dsz := bev [s0; s1; s2]) in *. rewrite !zlen_cons in *.
  destruct (cap <? dsz) eqn:C1; [discriminate|]. destruct (zlen s' <? dsz) eqn:C2; [discriminate|].
  assert (Hs' : bytes s') by (do 15 (apply bytes_cons in Hb as [_ Hb]); exact Hb).
  assert (Hbb : bytes (take dsz s')) by (apply bytes_take; exact Hs').
  assert (Hzl : zlen (take dsz s') = dsz) by (rewrite zlen_take by lia; lia).
  rewrite Hzl. unfold prefix_size. destruct (take dsz s') as [|f b1].
  { change (zlen (@nil Z)) with 0 in Hzl. destruct (ty =? 8) eqn:T8; [|destruct (ty =? 9) eqn:T9; [|destruct (ty =? 18); discriminate]];
      (split; [reflexivity|]; split; [reflexivity|]; split; [lia|]; split; [cbn; rewrite T8; try rewrite T9; reflexivity|intros _ f Hf; discriminate]). }
  apply bytes_cons in Hbb as [Hf Hbb]. rewrite zlen_cons in Hzl. unfold byte in Hf.
  assert (Hm : (f / 16) mod 16 = f / 16) by (apply Z.mod_small; split; [apply Z.div_pos; lia|apply Z.div_lt_upper_bound; lia]).
  unfold runs_out. rewrite Hm. destruct (ty =? 8) eqn:T8; [|destruct (ty =? 9) eqn:T9; [|destruct (ty =? 18); discriminate]].
  - unfold flv_audio_body in H. change CODEC_AAC with 10 in H. destruct (f / 16 =? 10) eqn:E; [|discriminate]. cbn [negb] in H. destruct b1 as [|x [|y l]]; try discriminate.
    change (zlen (@nil Z)) with 0 in Hzl. split; [reflexivity|]. split; [reflexivity|]. split; [lia|]. split; [reflexivity|lia].
  - unfold flv_video_body in H. change CODEC_H264 with 7 in H. change CODEC_H265 with 12 in H. rewrite <- negb_orb in H.
    destruct ((f mod 16 =? 7) || (f mod 16 =? 12)); [|discriminate]. cbn [negb] in H. destruct (f / 16 =? 5) eqn:E5; [destruct b1; discriminate|].
    assert (Hz : zlen b1 < 4). { destruct b1 as [|? [|? [|? [|? [|? ?]]]]]; try discriminate; reflexivity. }
    split; [reflexivity|]. split; [reflexivity|]. split; [lia|]. split; [cbn [negb andb]; lia|].
    intros _ g Hg. rewrite nthz_0 in Hg. injection Hg as <-. lia.
Qed.

(** ** One tag *)
Lemma packet_place r cap e s n : at_ r cap e s n -> bytes s -> 15 <= cap ->
  match spec_flv_next cap e s with
  | FPacket p rest => exists r1, flv_read_packet r = (Ok p, r1) /\ at_ r1 cap e rest 0 /\ ab_ptr (br_buf r1) = body_place cap (ab_ptr (br_buf r)) s + tag_size s
  | FErr c => fst (flv_read_packet r) = Err c
  | FShort =>
      let b := take (tag_size s) (drop 15 s) in let pos := body_place cap (ab_ptr (br_buf r)) s in
      pos + zlen b <= cap /\ exists junk, zlen junk = cap - (pos + zlen b) /\ (fst (flv_read_packet r) = UB <-> runs_out (nth 4 s 0) (b ++ junk) = true)
  end.
Proof.
  intros H Hb Hcap. destruct (flv_read_packet_ok r cap e s n H Hb Hcap) as (x & r1 & Hr & Hx).
  destruct (spec_flv_next cap e s) as [p rest|c|] eqn:E; cbn [flv_step_ok] in Hx.
  - destruct Hx as [-> A]. exists r1. split; [exact Hr|]. split; [exact A|].
    destruct (spec_sizes cap e s ltac:(intros c; rewrite E; discriminate)) as (H1 & H2 & H3).
    destruct (front_ok r cap e s n H Hb Hcap H1 H2 H3) as (dts & r2 & F1 & F2 & F3). rewrite packet_parts in Hr. unfold mbind in Hr. rewrite F1 in Hr. cbn [fst snd] in Hr.
    apply back_ptr in Hr. congruence.
  - rewrite Hr. exact Hx.
  - clear x r1 Hr Hx. cbv zeta. destruct (spec_sizes cap e s ltac:(intros c; rewrite E; discriminate)) as (H1 & H2 & H3).
    destruct (spec_short cap e s Hb E) as (T & Z1 & Z2 & _ & Z4).
    destruct (front_ok r cap e s n H Hb Hcap H1 H2 H3) as (dts & r2 & F1 & F2 & F3). rewrite <- F3.
    destruct F2 as [G1 G2 G3 G4 G5 G6]. pose proof G1 as (P1 & P2 & P3 & _). unfold buffered in G3.
    assert (Hn : 0 <= tag_size s) by (rewrite <- Z1; apply zlen_nonneg).
    assert (Ha : take (tag_size s) (ahead r2) = take (tag_size s) (drop 15 s)).
    { rewrite <- G2. unfold br_stream, br_pending. rewrite take_app_le by (rewrite zlen_take, zlen_drop by lia; unfold ab_cap in *; lia). rewrite take_take, Z.min_l by lia. reflexivity. }
    assert (Hl : zlen (ahead r2) = cap - ab_ptr (br_buf r2)) by (unfold ahead; rewrite zlen_drop by lia; unfold ab_cap in *; lia).
    rewrite Z1. split; [lia|]. exists (drop (tag_size s) (ahead r2)). split; [rewrite zlen_drop by lia; lia|].
    rewrite <- Ha, take_drop. rewrite packet_parts. unfold mbind. rewrite F1. cbn [fst snd]. apply back_short; [lia|lia|exact T|].
    intros T9 Hd f Hf. apply (Z4 T9). rewrite <- Ha, nthz_take by lia. exact Hf.
Qed.

(** ** The whole stream *)
Lemma all_place fuel : forall r cap e s, at_ r cap e s 0 -> bytes s -> 15 <= cap ->
  let x := snd (fst (flv_read_all fuel r)) in
  match short_tag fuel cap e s (ab_ptr (br_buf r)) with
  | None => x <> UB
  | Some (ty, pos, b) => pos + zlen b <= cap /\ runs_out ty b = true /\ zlen b < prefix_size ty /\
      exists junk, zlen junk = cap - (pos + zlen b) /\ (x = UB <-> runs_out ty (b ++ junk) = true)
  end.
Proof.
  induction fuel as [|f IH]; intros r cap e s H Hb Hc; cbn [flv_read_all short_tag]; [discriminate|].
  pose proof (packet_place r cap e s 0 H Hb Hc) as P. destruct (spec_flv_next cap e s) as [p rest|c|] eqn:E.
  - destruct P as (r1 & Hr & A & Hp). rewrite Hr. specialize (IH r1 cap e rest A (spec_flv_next_bytes _ _ _ _ _ Hb E) Hc). rewrite Hp in IH.
    destruct (flv_read_all f r1) as [[ps x] r2]. exact IH.
  - destruct (flv_read_packet r) as [x r1]. cbn [fst] in P. subst x. discriminate.
  - cbv zeta in *. destruct (spec_short cap e s Hb E) as (T & Z1 & Z2 & Z3 & Z4). destruct P as (P1 & junk & P2 & P3).
    split; [exact P1|]. split; [exact Z3|]. split; [exact Z2|]. exists junk. split; [exact P2|]. rewrite <- P3.
    destruct (flv_read_packet_ok r cap e s 0 H Hb Hc) as (x & r1 & Hr & Hx). rewrite Hr. rewrite E in Hx. cbn [fst flv_step_ok] in *.
    destruct Hx as [->|[->|[->| ->]]]; cbn [fst snd]; split; congruence.
Qed.
Lemma runs_out_size ty l : runs_out ty l = true -> zlen l < prefix_size ty.
Proof.
  unfold runs_out, prefix_size. destruct l as [|f l1]; [intros _; cbn; destruct (ty =? 8); lia|]. rewrite zlen_cons.
  destruct (ty =? 8); [|destruct (ty =? 9); [|discriminate]]; intros H; apply andb_prop in H as [_ H]; lia.
Qed.
Lemma short_tag_short fuel : forall cap e s p ty pos b, bytes s -> short_tag fuel cap e s p = Some (ty, pos, b) -> runs_out ty b = true.
Proof.
  induction fuel as [|f IH]; intros cap e s p ty pos b Hb H; cbn [short_tag] in H; [discriminate|].
  destruct (spec_flv_next cap e s) as [q rest|c|] eqn:E; [|discriminate|].
  - eapply IH; [exact (spec_flv_next_bytes _ _ _ _ _ Hb E)|exact H].
  - injection H as <- _ <-. apply (spec_short cap e s Hb E).
Qed.
