(** Lemmas about the FFmpeg build. *)
From Verif Require Import Base M_Packet M_FFmpeg S_FFmpeg.

Lemma relayed_test s : negb (fs_kind s =? MEDIA_AUDIO) && negb (fs_kind s =? MEDIA_VIDEO) && negb (fs_kind s =? MEDIA_SUBTITLE)
     && negb (fs_kind s =? MEDIA_DATA) = negb (relayed (fs_kind s)).
Proof. unfold relayed, MEDIA_AUDIO, MEDIA_VIDEO, MEDIA_SUBTITLE, MEDIA_DATA. lia. Qed.

Lemma set_ctx_inv ss : forall m, let m' := fold_left on_av_stream ss m in
  zlen (fm_map m') = zlen (fm_map m) + zlen ss /\ zlen (fm_out m') = zlen (fm_out m) + outputs ss /\
  (forall j, (j < length (fm_map m))%nat -> nth j (fm_map m') (-1) = nth j (fm_map m) (-1)) /\
  (forall j s, nth_error ss j = Some s ->
     nth (length (fm_map m) + j) (fm_map m') (-1) = if relayed (fs_kind s) then zlen (fm_map m) + Z.of_nat j else -1).
Proof.
  induction ss as [|s ss IH]; intros m; cbn [fold_left].
  - unfold outputs, zlen. cbn. repeat split; try lia. intros [|]; discriminate.
  - specialize (IH (on_av_stream m s)). cbn zeta in IH |- *.
    assert (L : length (fm_map (on_av_stream m s)) = S (length (fm_map m))).
    { unfold on_av_stream. rewrite relayed_test. destruct (relayed (fs_kind s)); cbn; rewrite app_length; cbn; lia. }
    assert (O : zlen (fm_out (on_av_stream m s)) = zlen (fm_out m) + if relayed (fs_kind s) then 1 else 0).
    { unfold on_av_stream, zlen. rewrite relayed_test. destruct (relayed (fs_kind s)); cbn; rewrite ?app_length; cbn; lia. }
    assert (N : nth (length (fm_map m)) (fm_map (on_av_stream m s)) (-1) = if relayed (fs_kind s) then zlen (fm_map m) else -1).
    { unfold on_av_stream. rewrite relayed_test. destruct (relayed (fs_kind s)); cbn; rewrite app_nth2, Nat.sub_diag by lia; reflexivity. }
    assert (P : forall j, (j < length (fm_map m))%nat -> nth j (fm_map (on_av_stream m s)) (-1) = nth j (fm_map m) (-1)).
    { intros j Hj. unfold on_av_stream. rewrite relayed_test. destruct (relayed (fs_kind s)); cbn; rewrite app_nth1 by lia; reflexivity. }
    destruct IH as (I1 & I2 & I3 & I4). repeat split.
    + rewrite I1. unfold zlen. rewrite L. cbn [length]. lia.
    + rewrite I2, O. unfold outputs, zlen. cbn [filter]. destruct (relayed (fs_kind s)); cbn [length]; lia.
    + intros j Hj. rewrite I3 by lia. apply P; exact Hj.
    + intros j s' Hj. destruct j as [|j]; cbn in Hj.
      * injection Hj as <-. rewrite Nat.add_0_r. rewrite I3 by lia. rewrite N. destruct (relayed (fs_kind s)); lia.
      * specialize (I4 j s' Hj). rewrite L in I4. replace (length (fm_map m) + S j)%nat with (S (length (fm_map m)) + j)%nat by lia.
        rewrite I4. unfold zlen. rewrite L. destruct (relayed (fs_kind s')); lia.
Qed.

Lemma set_ctx_ok ss : let m := ff_set_ctx (Some ss) in
  zlen (fm_map m) = zlen ss /\ zlen (fm_out m) = outputs ss /\
  (forall j s, nth_error ss j = Some s -> nth j (fm_map m) (-1) = if relayed (fs_kind s) then Z.of_nat j else -1).
Proof.
  cbn [ff_set_ctx]. destruct (set_ctx_inv ss ffmux0) as (A & B & _ & D). cbn in A, B, D. cbn zeta.
  split; [exact A|]. split; [exact B|]. intros j s Hj. specialize (D j s Hj). rewrite D. destruct (relayed (fs_kind s)); reflexivity.
Qed.

Lemma rescale_close t tb tb' : 0 <= t -> ticks tb -> ticks tb' -> fits t tb tb' ->
  exists t', ff_rescale_ts t tb tb' = t' /\ 0 <= t' /\ same_time t tb t' tb'.
Proof.
  intros Ht [H1 H2] [H3 H4] [F1 F2]. unfold ff_rescale_ts, ff_rescale. unfold NOPTS, INT64_MAX.
  replace (t =? - 2 ^ 63) with false by lia. cbn [andb].
  set (b := fst tb * snd tb') in *. set (c := fst tb' * snd tb) in *.
  assert (0 < b) by (subst b; nia). assert (0 < c) by (subst c; nia).
  replace ((c <=? 0) || (b <? 0)) with false by lia.
  rewrite Z.min_l by lia. rewrite Z.abs_eq by lia.
  set (v := (t * b + c / 2) / c).
  assert (D1 : v * c <= t * b + c / 2 < (v + 1) * c).
  { subst v. pose proof (Z.div_mod (t * b + c / 2) c ltac:(lia)). pose proof (Z.mod_pos_bound (t * b + c / 2) c ltac:(lia)). nia. }
  assert (D2 : 2 * (c / 2) <= c < 2 * (c / 2) + 2). { pose proof (Z.div_mod c 2 ltac:(lia)). pose proof (Z.mod_pos_bound c 2 ltac:(lia)). lia. }
  assert (0 <= v) by (apply Z.div_pos; nia).
  assert (v <= 2 ^ 63 - 1). { assert (2 * v * c < (2 ^ 64 - 2) * c) by nia. nia. }
  replace (2 ^ 63 - 1 <? v) with false by lia. replace (t <? 0) with false by lia.
  exists v. split; [reflexivity|]. split; [lia|]. unfold same_time. fold b c. nia.
Qed.

Lemma rescale_negative t tb tb' : ticks tb -> ticks tb' -> - 2 ^ 63 <= t -> before_zero t tb tb' \/ t = NOPTS -> ff_rescale_ts t tb tb' < 0.
Proof.
  intros [H1 H2] [H3 H4] Hr [[Ht Hb]|Ht].
  2:{ subst t. unfold ff_rescale_ts, NOPTS. cbn. lia. }
  unfold ff_rescale_ts, ff_rescale, NOPTS, INT64_MAX. destruct (Z.eqb_spec t (- 2 ^ 63)); [lia|]. cbn [andb].
  set (b := fst tb * snd tb') in *. set (c := fst tb' * snd tb) in *.
  assert (0 < b) by (subst b; nia). assert (0 < c) by (subst c; nia).
  replace ((c <=? 0) || (b <? 0)) with false by lia.
  rewrite Z.min_l by lia. rewrite Z.abs_neq by lia.
  set (v := (- t * b + c / 2) / c).
  assert (D2 : 2 * (c / 2) <= c < 2 * (c / 2) + 2). { pose proof (Z.div_mod c 2 ltac:(lia)). pose proof (Z.mod_pos_bound c 2 ltac:(lia)). lia. }
  assert (1 <= v). { subst v. apply Z.div_le_lower_bound; nia. }
  destruct (2 ^ 63 - 1 <? v); [lia|]. replace (t <? 0) with true by lia. lia.
Qed.

Lemma ff_read_inv ss f p : ff_read_packet ss (Some f) = Ok p ->
  exists j s, nth_error ss j = Some s /\ fr_index f = Z.of_nat j /\ fk_raw p = f /\ fk_tb p = fs_tb s /\ fk_stream p = from_ffmpeg (fs_kind s).
Proof.
  unfold ff_read_packet. destruct (Z.ltb_spec (fr_index f) 0); [discriminate|].
  destruct (nth_error ss (Z.to_nat (fr_index f))) as [s|] eqn:E; [|discriminate]. intros [= <-].
  exists (Z.to_nat (fr_index f)), s. cbn. repeat split; auto. lia.
Qed.

Lemma made_for_lt ss : forall j i s, nth_error ss i = Some s -> (i < j)%nat -> (j <= length ss)%nat -> relayed (fs_kind s) = false -> made_for ss j < Z.of_nat j.
Proof.
  induction ss as [|x ss IH]; intros j i s Hi Hlt Hj Hr; [destruct i; discriminate|].
  assert (Le : forall n, made_for ss n <= Z.of_nat n).
  { intros n. unfold made_for, zlen. assert (length (filter (fun s0 => relayed (fs_kind s0)) (firstn n ss)) <= length (firstn n ss))%nat.
    { generalize (firstn n ss). intros l. induction l as [|y l IHl]; cbn; [lia|]. destruct (relayed (fs_kind y)); cbn; lia. }
    pose proof (firstn_le_length n ss). lia. }
  destruct j as [|j]; [lia|]. destruct i as [|i]; cbn in Hi.
  - injection Hi as ->. unfold made_for. cbn [firstn filter]. rewrite Hr. specialize (Le j). unfold made_for in Le. lia.
  - cbn [length] in Hj. specialize (IH j i s Hi ltac:(lia) ltac:(lia) Hr). unfold made_for in IH |- *. cbn [firstn filter].
    destruct (relayed (fs_kind x)); unfold zlen in *; cbn [length]; lia.
Qed.

Lemma made_for_all ss : Forall (fun s => relayed (fs_kind s) = true) ss -> forall j, (j <= length ss)%nat -> made_for ss j = Z.of_nat j.
Proof.
  induction 1 as [|x ss Hx H IH]; intros j Hj; cbn in Hj.
  - destruct j; [reflexivity|lia].
  - destruct j as [|j]; [reflexivity|]. specialize (IH j ltac:(lia)). unfold made_for, zlen in *. cbn [firstn filter]. rewrite Hx. cbn [length]. lia.
Qed.
Lemma outputs_all ss : Forall (fun s => relayed (fs_kind s) = true) ss -> outputs ss = zlen ss.
Proof. induction 1 as [|x ss Hx H IH]; [reflexivity|]. unfold outputs, zlen in *. cbn [filter]. rewrite Hx. cbn [length]. lia. Qed.

Lemma ff_cache_snoc h p : ff_cache (h ++ [p]) = ff_put (ff_cache h) p.
Proof. unfold ff_cache. rewrite fold_left_app. reflexivity. Qed.
Lemma ff_cache_newest h : newest_from_key (fun p => ff_keyframe p = true) h (ff_cache h).
Proof.
  induction h as [|p h IH] using rev_ind.
  - exists []. split; [reflexivity|]. left. split; [reflexivity|intros ? []].
  - rewrite ff_cache_snoc. unfold ff_put. destruct IH as (old & E & H). destruct (ff_keyframe p) eqn:K.
    + exists h. split; [reflexivity|]. right. exists p, []. split; [reflexivity|]. split; [exact K|intros ? []].
    + destruct H as [[E1 N]|(k & r & E1 & Hk & Hr)].
      * rewrite E1. exists (h ++ [p]). split; [rewrite app_nil_r; reflexivity|]. left. split; [reflexivity|].
        intros q Hq. apply in_app_or in Hq. destruct Hq as [Hq|[<-|[]]]; [apply N, Hq|congruence].
      * rewrite E1. cbn iota beta. rewrite E1 in E. exists old. split; [rewrite E at 1; rewrite <- app_assoc; reflexivity|].
        right. exists k, (r ++ [p]). split; [reflexivity|]. split; [exact Hk|]. intros q Hq. apply in_app_or in Hq.
        destruct Hq as [Hq|[<-|[]]]; [apply Hr, Hq|congruence].
Qed.
