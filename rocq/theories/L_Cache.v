(** Lemmas on caches and packet buffers. *)
From Verif Require Import Base M_Packet M_Cache S_Cache.

Lemma last_such_snoc f h p :
  last_such f (h ++ [p]) = if f p then Some p else last_such f h.
Proof.
  induction h as [|x r IH]; cbn.
  - destruct (f p); reflexivity.
  - rewrite IH. destruct (f p); [reflexivity|]. reflexivity.
Qed.

Lemma from_last_key_nokey m : existsb is_keyframe m = false -> from_last_key m = [].
Proof.
  destruct m as [|x r]; cbn; [reflexivity|].
  intros H. apply orb_false_iff in H as [H1 H2]. rewrite H2, H1. reflexivity.
Qed.

Lemma from_last_key_key m : existsb is_keyframe m = true ->
  exists k r, from_last_key m = k :: r /\ is_keyframe k = true /\ existsb is_keyframe r = false.
Proof.
  induction m as [|x r IH]; cbn; [discriminate|].
  intros H. destruct (existsb is_keyframe r) eqn:E.
  - exact (IH eq_refl).
  - rewrite orb_false_r in H. rewrite H. eauto.
Qed.

Lemma from_last_key_snoc m p :
  from_last_key (m ++ [p]) =
  if is_keyframe p then [p]
  else match from_last_key m with [] => [] | _ :: _ => from_last_key m ++ [p] end.
Proof.
  induction m as [|x r IH]; cbn.
  - destruct (is_keyframe p); reflexivity.
  - rewrite existsb_app. cbn. rewrite orb_false_r. rewrite IH.
    destruct (is_keyframe p) eqn:Ep.
    + rewrite orb_true_r. reflexivity.
    + rewrite orb_false_r. destruct (existsb is_keyframe r) eqn:E; [reflexivity|].
      destruct (is_keyframe x); reflexivity.
Qed.

Lemma filter_snoc {A} (f : A -> bool) l x :
  filter f (l ++ [x]) = filter f l ++ (if f x then [x] else []).
Proof. rewrite filter_app. cbn. destruct (f x); reflexivity. Qed.

Lemma audio_not_video p : is_audio p = true -> is_video p = false.
Proof. unfold is_audio, is_video, AV_STREAM_TYPE_AUDIO, AV_STREAM_TYPE_VIDEO. lia. Qed.
Lemma audio_not_script p : is_audio p = true -> is_script p = false.
Proof. unfold is_audio, is_script, AV_STREAM_TYPE_AUDIO, AV_STREAM_TYPE_SUBTITLE. lia. Qed.
Lemma video_not_script p : is_video p = true -> is_script p = false.
Proof. unfold is_video, is_script, AV_STREAM_TYPE_VIDEO, AV_STREAM_TYPE_SUBTITLE. lia. Qed.

Definition gop_inv (h : list pkt) (g : gop) : Prop :=
  g_script g = last_such is_script h /\ g_audio g = last_such is_audio_seq h /\
  g_video g = last_such is_video_seq h /\ g_pbs g = from_last_key (filter is_media h).

Lemma gop_put_inv h g p : gop_inv h g -> gop_inv (h ++ [p]) (gop_put g p).
Proof.
  intros (H1 & H2 & H3 & H4). unfold gop_inv, gop_put.
  rewrite !last_such_snoc, filter_snoc.
  assert (Ha : is_audio_seq p = true -> is_video_seq p = false /\ is_script p = false).
  { unfold is_audio_seq, is_video_seq. intros H. apply andb_true_iff in H as [H _].
    rewrite (audio_not_video _ H), (audio_not_script _ H). auto. }
  assert (Hv : is_video_seq p = true -> is_script p = false).
  { unfold is_video_seq. intros H. apply andb_true_iff in H as [H _].
    apply (video_not_script _ H). }
  unfold is_media at 2.
  destruct (is_audio_seq p) eqn:Ea.
  - destruct (Ha eq_refl) as [E1 E2]. rewrite E1, E2. cbn. rewrite app_nil_r. auto.
  - destruct (is_video_seq p) eqn:Ev.
    + rewrite (Hv eq_refl). cbn. rewrite app_nil_r. auto.
    + destruct (is_script p) eqn:Es.
      * cbn. rewrite app_nil_r. auto.
      * cbn. rewrite from_last_key_snoc. destruct (is_keyframe p) eqn:Ek.
        -- cbn. auto.
        -- rewrite <- H4. destruct (g_pbs g) eqn:Eg; cbn; auto.
Qed.

Lemma gop_inv0 : gop_inv [] gop0.
Proof. unfold gop_inv. cbn. auto. Qed.

Lemma gop_run_inv h : gop_inv h (fold_left gop_put h gop0).
Proof.
  induction h as [|p h IH] using rev_ind; [exact gop_inv0|].
  rewrite fold_left_app. cbn. apply gop_put_inv. exact IH.
Qed.

Lemma opt_maybe {A} (o : option A) : opt_list o = maybe o.
Proof. destruct o; reflexivity. Qed.

Lemma gop_inv_dump h g : gop_inv h g ->
  gop_dump g = (gop_snapshot h, zlen (from_last_key (filter is_media h))).
Proof.
  intros (H1 & H2 & H3 & H4). unfold gop_dump, gop_snapshot.
  rewrite H1, H2, H3, H4, !opt_maybe. reflexivity.
Qed.

Lemma from_last_key_suffix m : exists old, m = old ++ from_last_key m.
Proof.
  induction m as [|x r [old IH]]; [exists []; reflexivity|]. cbn.
  destruct (existsb is_keyframe r).
  - exists (x :: old). cbn. f_equal. exact IH.
  - destruct (is_keyframe x); [exists []; reflexivity | exists (x :: r); rewrite app_nil_r; reflexivity].
Qed.

Lemma newest_gop_holds h : newest_gop h (from_last_key (filter is_media h)).
Proof.
  destruct (from_last_key_suffix (filter is_media h)) as [old H]. exists old. split; [exact H|].
  destruct (existsb is_keyframe (filter is_media h)) eqn:E.
  - right. destruct (from_last_key_key _ E) as (k & r & E1 & E2 & E3). exists k, r.
    split; [exact E1|]. split; [exact E2|]. intros p Hp.
    destruct (is_keyframe p) eqn:Ep; [|reflexivity].
    assert (existsb is_keyframe r = true) as X by (apply existsb_exists; eauto).
    congruence.
  - left. split; [apply from_last_key_nokey; exact E|].
    intros p Hp Hm. destruct (is_keyframe p) eqn:Ep; [|reflexivity].
    assert (existsb is_keyframe (filter is_media h) = true) as X.
    { apply existsb_exists. exists p. split; [|exact Ep]. apply filter_In. auto. }
    congruence.
Qed.

(** The relation determines the media part. *)
Lemma newest_gop_unique h m1 m2 : newest_gop h m1 -> newest_gop h m2 -> m1 = m2.
Proof.
  assert (W : forall h m, newest_gop h m -> m = from_last_key (filter is_media h)).
  { clear. intros h m (old & H & [[-> Hn]|(k & r & -> & Hk & Hr)]).
    - symmetry. apply from_last_key_nokey.
      destruct (existsb is_keyframe (filter is_media h)) eqn:E; [|reflexivity].
      apply existsb_exists in E as (p & Hp & Ep). apply filter_In in Hp as [Hp Hm].
      rewrite (Hn p Hp Hm) in Ep. discriminate.
    - rewrite H. clear H. induction old as [|x old IH]; cbn.
      + assert (existsb is_keyframe r = false) as ->.
        { destruct (existsb is_keyframe r) eqn:E; [|reflexivity].
          apply existsb_exists in E as (p & Hp & Ep). rewrite (Hr p Hp) in Ep. discriminate. }
        rewrite Hk. reflexivity.
      + assert (existsb is_keyframe (old ++ k :: r) = true) as ->.
        { rewrite existsb_app. cbn. rewrite Hk. rewrite orb_true_r. reflexivity. }
        exact IH. }
  intros H1 H2. rewrite (W _ _ H1), (W _ _ H2). reflexivity.
Qed.

(** * The raw TS cache. *)
Lemma unit_start_never p : is_unit_start p = false.
Proof.
  unfold is_unit_start. destruct (p_stream p =? AV_STREAM_PES); [cbn|reflexivity].
  apply Z.eqb_neq. intros H.
  assert (X : Z.testbit (Z.land (p_ptype p) 0x80000000) 0 = Z.testbit 1 0) by (rewrite H; reflexivity).
  rewrite Z.land_spec in X. change (Z.testbit 0x80000000 0) with false in X.
  rewrite andb_false_r in X. cbn in X. discriminate.
Qed.

Definition tsc_inv (h : list pkt) (t : tsc) : Prop :=
  t_pat t = last_such is_pat h /\
  t_pmt t = last_such (fun p => is_pmt p && negb (is_pat p)) h /\
  t_pbs t = filter (fun p => negb (is_pat p || is_pmt p)) h.

Lemma tsc_put_inv h t p : tsc_inv h t -> tsc_inv (h ++ [p]) (tsc_put t p).
Proof.
  intros (H1 & H2 & H3). unfold tsc_inv, tsc_put. rewrite !last_such_snoc, filter_snoc.
  rewrite unit_start_never.
  destruct (is_pat p) eqn:Ea; cbn.
  - rewrite andb_false_r, app_nil_r. auto.
  - destruct (is_pmt p) eqn:Em; cbn; rewrite ?app_nil_r; rewrite ?H3; auto.
Qed.

Lemma tsc_inv0 : tsc_inv [] tsc0.
Proof. unfold tsc_inv. cbn. auto. Qed.

Lemma tsc_run_inv h : tsc_inv h (fold_left tsc_put h tsc0).
Proof.
  induction h as [|p h IH] using rev_ind; [exact tsc_inv0|].
  rewrite fold_left_app. cbn. apply tsc_put_inv. exact IH.
Qed.

Lemma tsc_inv_dump h t : tsc_inv h t -> fst (tsc_dump t) = ts_snapshot h.
Proof.
  intros (H1 & H2 & H3). unfold tsc_dump, ts_snapshot. cbn.
  rewrite H1, H2, H3, !opt_maybe. reflexivity.
Qed.

(** * Packet buffers. *)
Lemma u32_id x : 0 <= x < 2^32 -> u32 x = x.
Proof. intros. unfold u32. apply Z.mod_small. lia. Qed.

Lemma cb_append_ok b p m1 m2 :
  cb_mem b = m1 ++ m2 -> zlen m1 = cb_len b ->
  cb_cap b < 2^32 -> 0 <= cb_len b -> 0 <= cb_head b ->
  zlen (cb_mem b) = cb_cap b + cb_head b ->
  cb_len b + zlen p <= cb_cap b ->
  cb_append b p = Ok (mkcb (m1 ++ p ++ drop (zlen p) m2) (cb_len b + zlen p) (cb_head b) (cb_cap b)).
Proof.
  intros Hm H1 Hc Hl Hh Hlen Hfit. pose proof (zlen_nonneg p) as Hp.
  unfold cb_append, cb_remain. rewrite u32_id by lia.
  replace (cb_cap b - cb_len b <? zlen p) with false by lia.
  rewrite slice_some by lia. cbn. rewrite u32_id by lia.
  f_equal. f_equal. rewrite Hm. rewrite take_app_exact by lia.
  rewrite drop_app_ge by lia. rewrite H1. do 2 f_equal. f_equal. lia.
Qed.

Lemma cb_append_full b p :
  0 <= cb_cap b < 2^32 -> 0 <= cb_len b <= cb_cap b -> cb_cap b < cb_len b + zlen p ->
  cb_append b p = Err ASSERT.
Proof.
  intros. unfold cb_append, cb_remain. rewrite u32_id by lia.
  replace (cb_cap b - cb_len b <? zlen p) with true by lia. reflexivity.
Qed.

Lemma cb_appends_ok ps : forall b m1 m2,
  cb_mem b = m1 ++ m2 -> zlen m1 = cb_len b ->
  cb_cap b < 2^32 -> 0 <= cb_len b -> 0 <= cb_head b ->
  zlen (cb_mem b) = cb_cap b + cb_head b ->
  cb_len b + zlen (concat ps) <= cb_cap b ->
  cb_appends b ps = Ok (mkcb (m1 ++ concat ps ++ drop (zlen (concat ps)) m2)
                             (cb_len b + zlen (concat ps)) (cb_head b) (cb_cap b)).
Proof.
  induction ps as [|p ps IH]; intros b m1 m2 Hm H1 Hc Hl Hh Hlen Hfit.
  - cbn [concat]. rewrite zlen_nil, Z.add_0_r, drop_0 by lia. cbn. rewrite <- Hm. destruct b; reflexivity.
  - cbn [concat] in *. rewrite zlen_app in *. pose proof (zlen_nonneg p). pose proof (zlen_nonneg (concat ps)).
    pose proof (zlen_nonneg m1). pose proof (zlen_nonneg m2).
    assert (zlen (cb_mem b) = zlen m1 + zlen m2) by (rewrite Hm; apply zlen_app).
    cbn [cb_appends]. rewrite (cb_append_ok b p m1 m2) by (auto; lia). cbn [bind].
    rewrite (IH _ (m1 ++ p) (drop (zlen p) m2)); cbn [cb_mem cb_len cb_head cb_cap]; try lia.
    + f_equal. f_equal; [|lia]. rewrite <- !app_assoc. do 2 f_equal. f_equal.
      rewrite drop_drop by lia. f_equal. lia.
    + rewrite <- app_assoc. reflexivity.
    + rewrite zlen_app. lia.
    + rewrite !zlen_app, zlen_drop by lia. lia.
Qed.

Lemma cb_new_appends init cap head ps :
  0 <= cap -> 0 <= head -> cap + head < 2^32 -> cap + head <= zlen init -> zlen (concat ps) <= cap ->
  exists b, cb_appends (cb_new init cap head) ps = Ok b /\
    cb_len b = zlen (concat ps) /\ cb_head b = head /\ cb_cap b = cap /\
    cb_contents b = Ok (take (zlen (concat ps)) (drop head (concat ps ++ drop (zlen (concat ps)) (take (cap + head) init)))).
Proof.
  intros Hc Hh Hs Hi Hfit. pose proof (zlen_nonneg (concat ps)) as Hp.
  assert (Hz : zlen (take (cap + head) init) = cap + head) by (rewrite zlen_take by lia; lia).
  unfold cb_new. rewrite u32_id by lia.
  rewrite (cb_appends_ok ps _ [] (take (cap + head) init)); cbn [cb_mem cb_len cb_head cb_cap app];
    try lia; try reflexivity.
  eexists. split; [reflexivity|]. cbn [cb_mem cb_len cb_head cb_cap]. split; [lia|]. split; [reflexivity|]. split; [reflexivity|].
  unfold cb_contents. cbn [cb_mem cb_len cb_head cb_cap].
  rewrite slice_some; [cbn; f_equal; f_equal; lia|lia|lia|].
  rewrite zlen_app, zlen_drop by lia. lia.
Qed.
