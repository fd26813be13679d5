(** Lemmas about the receiving tool. *)
From Coq Require Import Sorting.Sorted.
From Verif Require Import Base M_Opt M_Udp M_UdpClient M_BlackHole S_UdpClient S_BlackHole.

Lemma bh_read_ok : forall d, bh_read d = Ok (Z.min 4096 (zlen d)).
Proof.
  intros d. unfold bh_read, uq_push, uq_new. cbn [uq_size uq_list]. change (uq_max <=? 0) with false. cbn [app uq_read uq_list].
  pose proof (zlen_take 4096 d ltac:(lia)) as H. replace (4096 <? zlen (take 4096 d)) with false by lia. f_equal. exact H.
Qed.
Lemma counted_app : forall a b, counted (a ++ b) = counted a + counted b.
Proof. intros a b. unfold counted. induction a as [|x a IH]; [reflexivity|]. cbn [app map fold_right]. rewrite IH. lia. Qed.
Lemma counted_nonneg : forall a, 0 <= counted a.
Proof.
  intros a. unfold counted. induction a as [|x a IH]; [cbn; lia|]. cbn [map fold_right]. pose proof (zlen_nonneg (snd x)). lia.
Qed.
Lemma last_time_app : forall a b t, last_time t (a ++ b) = last_time (last_time t a) b.
Proof.
  intros a. induction a as [|x a IH] using rev_ind; intros b t; [reflexivity|].
  unfold last_time. destruct b as [|y b] using rev_ind; [rewrite app_nil_r; reflexivity|]. clear IHb.
  rewrite !app_assoc, !map_app. cbn [map]. rewrite !last_last. reflexivity.
Qed.
Lemma last_time_one : forall t u d, last_time t [(u, d)] = u.
Proof. reflexivity. Qed.

Lemma bh_session_gen : forall arr acc last pre,
  Forall (fun x => fst x - pre < 1000) acc -> 8 * counted (acc ++ arr) < 2 ^ 63 ->
  let '(rs, rest, r) := bh_session last pre (counted acc) arr in
  r = Ok tt /\ exists taken segs tail, arr = taken ++ rest /\ no_silence last taken /\
    (rest = [] \/ exists t d l, rest = (t, d) :: l /\ 10000 <= t - last_time last taken) /\
    acc ++ taken = concat segs ++ tail /\ reported pre segs rs /\ rest_quiet pre segs tail.
Proof.
  induction arr as [|[now d] arr IH]; intros acc last pre Hacc Hb.
  - cbn [bh_session]. split; [reflexivity|]. exists [], [], acc. rewrite (app_nil_r acc). cbn. auto 10.
  - cbn [bh_session]. unfold bh_wait. destruct (10000 <=? now - last) eqn:Ew.
    + split; [reflexivity|]. exists [], [], acc. rewrite (app_nil_r acc). split; [reflexivity|]. split; [exact I|].
      split; [right; exists now, d, arr; split; [reflexivity|]; cbn; lia|]. split; [reflexivity|]. split; [exact I|exact Hacc].
    + rewrite bh_read_ok.
      assert (Hc : counted acc + Z.min 4096 (zlen d) = counted (acc ++ [(now, d)])).
      { rewrite counted_app. cbn. lia. }
      rewrite Hc. assert (Hb1 : 8 * counted ((acc ++ [(now, d)]) ++ arr) < 2 ^ 63) by (rewrite <- app_assoc; exact Hb).
      destruct (1000 <=? now - pre) eqn:Er.
      * rewrite counted_app in Hb1. pose proof (counted_nonneg arr) as H0.
        replace (2 ^ 63 <=? counted (acc ++ [(now, d)]) * 8) with false by lia.
        pose proof (counted_nonneg (acc ++ [(now, d)])) as H1.
        specialize (IH [] now now (Forall_nil _)). cbn [app] in IH. change (counted []) with 0 in IH. specialize (IH ltac:(lia)).
        destruct (bh_session now now 0 arr) as [[rs rest] r]. destruct IH as (Hr & tk & segs & tail & E1 & E2 & E3 & E4 & E5 & E6).
        split; [exact Hr|]. exists ((now, d) :: tk), ((acc ++ [(now, d)]) :: segs), tail.
        assert (Elt : last_time pre (acc ++ [(now, d)]) = now) by (rewrite last_time_app; reflexivity).
        split; [cbn; congruence|]. split; [split; [lia|exact E2]|].
        split. { destruct E3 as [E3|(t & d' & l & E3 & E3')]; [left; exact E3|right]. exists t, d', l. split; [exact E3|].
                 change ((now, d) :: tk) with ([(now, d)] ++ tk). rewrite last_time_app, last_time_one. exact E3'. }
        split. { cbn [concat]. rewrite <- (app_assoc (acc ++ _)), <- E4, <- app_assoc. reflexivity. }
        split. { cbn [reported]. rewrite Elt. split; [exists acc, now, d; split; [reflexivity|]; split; [exact Hacc|lia]|].
                 split; [f_equal; lia|exact E5]. }
        unfold rest_quiet in *. cbn [concat]. rewrite last_time_app, Elt. exact E6.
      * specialize (IH (acc ++ [(now, d)]) now pre).
        assert (Hacc1 : Forall (fun x => fst x - pre < 1000) (acc ++ [(now, d)])).
        { apply Forall_app. split; [exact Hacc|]. constructor; [cbn; lia|constructor]. }
        specialize (IH Hacc1 Hb1). destruct (bh_session now pre _ arr) as [[rs rest] r].
        destruct IH as (Hr & tk & segs & tail & E1 & E2 & E3 & E4 & E5 & E6).
        split; [exact Hr|]. exists ((now, d) :: tk), segs, tail.
        split; [cbn; congruence|]. split; [split; [lia|exact E2]|].
        split. { destruct E3 as [E3|(t & d' & l & E3 & E3')]; [left; exact E3|right]. exists t, d', l. split; [exact E3|].
                 change ((now, d) :: tk) with ([(now, d)] ++ tk). rewrite last_time_app, last_time_one. exact E3'. }
        split; [rewrite <- E4, <- app_assoc; reflexivity|]. auto.
Qed.

(** With the load generator. *)
Lemma tool_told : forall nows inter gso rest seq pre w so last t,
  0 <= seq -> 0 <= w -> seq + zlen nows < 2 ^ 31 -> (0 < inter -> inter * gso < 2 ^ 63) ->
  w <= seq -> zlen rest = 1384 -> no_silence last (map (fun t => (t, [])) nows) ->
  Forall (fun x => 0 <= x - t < 2 ^ 64) (pre :: nows) -> StronglySorted Z.le (pre :: nows) ->
  exists d, map fst d = nows /\ map snd d = sends (fst (tool_loop inter gso rest seq pre w so (map (fun t => (t, true)) nows))) /\
  fst (fst (bh_session last pre (1400 * w) d)) = told (fst (tool_loop inter gso rest seq pre w so (map (fun t => (t, true)) nows))) /\
  snd (fst (bh_session last pre (1400 * w) d)) = [] /\ snd (bh_session last pre (1400 * w) d) = Ok tt.
Proof.
  induction nows as [|now nows IH]; intros inter gso rest seq pre w so last t Hs Hw Hn Hi Hws Hr Hq Hf Hso.
  - exists []. cbn. auto.
  - rewrite zlen_cons in Hn. pose proof (zlen_nonneg nows) as Hz. cbn [map no_silence] in Hq. destruct Hq as [Hq1 Hq2].
    inversion Hf as [|? ? Hp Hf']; subst. inversion Hf' as [|? ? Hnow Hf'']; subst.
    inversion Hso as [|? ? Hso1 Hle]; subst. inversion Hle as [|? ? Hpn Hle']; subst.
    inversion Hso1 as [|? ? Hso2 Hlen]; subst.
    cbn [map tool_loop]. replace (seq =? 2 ^ 31 - 1) with false by lia.
    replace (((0 <? inter) && (gso <=? so + 1)) && (2 ^ 63 <=? inter * gso)) with false.
    2:{ destruct (0 <? inter) eqn:E; [|reflexivity]. cbn [andb]. specialize (Hi ltac:(lia)). destruct (gso <=? so + 1); cbn [andb]; [lia|reflexivity]. }
    assert (Hms : u64 (now - pre) = now - pre) by (unfold u64; apply Z.mod_small; lia). rewrite Hms.
    set (pz := (0 <? inter) && (gso <=? so + 1)). set (rp := 1000 <=? now - pre).
    assert (Hz4 : zlen (tool_packet seq now rest) = 1400).
    { unfold tool_packet. rewrite !zlen_app, Hr. unfold le. rewrite !zlen_map || idtac. reflexivity. }
    assert (HIH : exists d, map fst d = nows /\
      map snd d = sends (fst (tool_loop inter gso rest (seq + 1) (if rp then now else pre) (if rp then 0 else w + 1) (if pz then 0 else so + 1) (map (fun t => (t, true)) nows))) /\
      fst (fst (bh_session now (if rp then now else pre) (1400 * (if rp then 0 else w + 1)) d)) =
        told (fst (tool_loop inter gso rest (seq + 1) (if rp then now else pre) (if rp then 0 else w + 1) (if pz then 0 else so + 1) (map (fun t => (t, true)) nows))) /\
      snd (fst (bh_session now (if rp then now else pre) (1400 * (if rp then 0 else w + 1)) d)) = [] /\ snd (bh_session now (if rp then now else pre) (1400 * (if rp then 0 else w + 1)) d) = Ok tt).
    { apply (IH inter gso rest (seq + 1) (if rp then now else pre) (if rp then 0 else w + 1) (if pz then 0 else so + 1) now t);
        try (destruct rp; lia); try assumption.
      - destruct rp; constructor; assumption.
      - destruct rp; [exact Hso1|]. constructor; assumption. }
    destruct HIH as (d & D1 & D2 & D3 & D5 & D4).
    destruct (tool_loop _ _ _ _ _ _ _ _) as [evs r]. cbn [fst snd] in *.
    exists ((now, tool_packet seq now rest) :: d). cbn [map fst snd]. split; [congruence|].
    split. { unfold sends in *. cbn [flat_map app]. rewrite flat_map_app, flat_map_app, <- D2. destruct pz, rp; reflexivity. }
    cbn [bh_session]. unfold bh_wait. replace (10000 <=? now - last) with false by lia. rewrite bh_read_ok, Hz4.
    change (Z.min 4096 1400) with 1400. replace (1400 * w + 1400) with (1400 * (w + 1)) by lia. fold rp.
    destruct rp eqn:Erp.
    + replace (2 ^ 63 <=? 1400 * (w + 1) * 8) with false by lia. change (1400 * 0) with 0 in *.
      destruct (bh_session now now 0 d) as [[rs rst] r1]. cbn [fst snd] in *. split; [|split; [exact D5|exact D4]].
      unfold told in *. cbn [flat_map app]. rewrite !flat_map_app, D3. destruct pz; cbn [flat_map app]; f_equal; f_equal; lia.
    + split; [|split; [exact D5|exact D4]]. unfold told in *. cbn [flat_map app]. rewrite !flat_map_app, D3. destruct pz; reflexivity.
Qed.

Lemma combine_parts : forall (A B : Type) (d : list (A * B)), combine (map fst d) (map snd d) = d.
Proof. intros A B d. induction d as [|[a b] d IH]; [reflexivity|]. cbn [map fst snd combine]. rewrite IH. reflexivity. Qed.
Lemma bh_main_gen : forall n arr, (length arr < n)%nat -> 8 * counted arr < 2 ^ 63 ->
  exists l, bh_main n arr = Some l /\ follows arr l.
Proof.
  induction n as [|n IH]; intros arr Hn Hb; [lia|]. destruct arr as [|[t d] arr].
  - exists []. split; [reflexivity|constructor].
  - cbn [bh_main]. pose proof (bh_session_gen ((t, d) :: arr) [] t t (Forall_nil _) Hb) as H. change (counted []) with 0 in H.
    destruct (bh_session t t 0 ((t, d) :: arr)) as [[rs rest] r]. destruct H as (-> & tk & segs & tail & E1 & E2 & E3 & E4 & E5 & E6).
    assert (Htk : tk <> []).
    { intros ->. destruct E3 as [->|(t1 & d1 & l1 & -> & E3)]; [discriminate|]. cbn in E1, E3. injection E1 as <- <- <-. lia. }
    destruct tk as [|[t' d'] tk]; [congruence|]. injection E1 as <- <- E1.
    destruct (IH rest) as (l & El & Fl).
    { cbn in Hn. rewrite E1, app_length in Hn. lia. }
    { rewrite E1 in Hb. change ((t, d) :: tk ++ rest) with (((t, d) :: tk) ++ rest) in Hb. rewrite counted_app in Hb.
      pose proof (counted_nonneg ((t, d) :: tk)). lia. }
    rewrite El. exists (rs :: l). split; [reflexivity|].
    rewrite E1. change ((t, d) :: tk ++ rest) with (((t, d) :: tk) ++ rest).
    cbn [app] in E4. apply (follows_one t d tk segs tail rest rs l); assumption.
Qed.
