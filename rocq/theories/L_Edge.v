(** Lemmas about edges and chains of servers. *)
From Verif Require Import Base M_IO S_IO L_IO M_Text M_Packet M_Cache S_Cache L_Cache M_Flv S_Flv L_Flv M_Live S_Live L_Live M_Conf M_Url M_Host M_Http S_Http L_Http L_Http2 L_Http3
  M_Https S_Https L_Https M_Upload S_Upload L_Upload M_Stream S_Stream L_Stream P_Stream M_HttpConn S_HttpConn L_HttpConn L_Live2 M_Edge S_Edge.

(** ** Reading the body of an upstream's answer *)
Lemma upd_prog_run : forall b n t, run_plain (upd_prog b n) t = (let '(r, b1, t1) := up_data b t n in (Ok (r, b1), t1)).
Proof.
  intros b n t. unfold upd_prog, up_data. cbv zeta. destruct (Z.min (hb_left b) n =? 0); [apply ct_prog_run|]. rewrite run_plain_bind, read_fully_prog_run.
  destruct (read_fully t (Z.min (hb_left b) n)) as [r t1]. destruct r; try reflexivity. apply ct_prog_run.
Qed.
Lemma up_prog_run : forall b n t, run_plain (up_prog b n) t = (let '(r, b1, t1) := up_read b t n in (Ok (r, b1), t1)).
Proof.
  intros b n t. unfold up_prog, up_read, hb_read. destruct (hb_eof b); [reflexivity|]. destruct (hb_chunked b) eqn:Hc.
  - unfold upc_prog, read_chunked. destruct (hb_left b =? 0); [|apply upd_prog_run]. rewrite run_plain_bind, rcl_prog_run.
    destruct (read_chunk_len b t) as [[r b1] t1]. destruct r; try reflexivity. apply upd_prog_run.
  - cbv zeta. cbn [run_plain]. match goal with |- context [t_read t ?m] => destruct (t_read_res t m) as [(d & t1 & ->)|(c & t1 & ->)] end; reflexivity.
Qed.
Lemma upd_okp : forall b n, hb_chunked b = true -> 0 <= hb_left b < 2 ^ 64 -> (hb_left b = 0 -> hb_size b = 0) -> 0 < n -> okp (rok n) rerr (upd_prog b n).
Proof.
  intros b n Hc Hl H0 Hn. unfold upd_prog. cbv zeta.
  assert (Hb1 : 0 <= hb_left (hb_set_left b (u64 (hb_left b - Z.min (hb_left b) n))) < 2 ^ 64) by (cbn [hb_left hb_set_left]; unfold u64; apply Z.mod_pos_bound; lia).
  destruct (Z.eqb_spec (Z.min (hb_left b) n) 0) as [K|K].
  - apply ct_okp; [exact Hc|exact Hb1|right]. split; [reflexivity|]. cbn [hb_size hb_set_left]. apply H0. lia.
  - eapply okp_bind; [apply read_fully_okp; lia| |].
    + intros r (d & -> & Hd). apply ct_okp; [exact Hc|exact Hb1|left; lia].
    + intros c r ->. eexists. split; reflexivity.
Qed.
Lemma up_okp : forall b n, binv b -> 0 < n -> okp (rok n) rerr (up_prog b n).
Proof.
  intros b n Hb Hn. pose proof (rq_okp b n Hb Hn) as R. unfold up_prog. unfold rq_prog in R. destruct (hb_eof b) eqn:He; [exact R|].
  destruct Hb as [Hb|[(Hc & Hl)|(Hc & Hb)]]; [congruence| |]; rewrite Hc in *; [|exact R].
  unfold upc_prog. destruct (Z.eqb_spec (hb_left b) 0) as [K|K]; [|apply upd_okp; [exact Hc|exact Hl|lia|exact Hn]].
  eapply okp_bind; [apply rcl_okp| |].
  - intros [r b1] H. destruct r as [u|c| |]; try (constructor; exact I). destruct H as (m & Hm & ->). apply upd_okp; cbn; auto.
  - intros c [r b1] H. unfold rerr in H. cbn in H. subst r. eexists. split; reflexivity.
Qed.
Lemma up_eof : forall b n, hb_eof b = true -> up_prog b n = PRet (Err ERROR_HTTP_RES_EOF, b).
Proof. intros b n H. unfold up_prog. rewrite H. reflexivity. Qed.
Lemma up_live_step : forall b t body rest n, live b t body rest -> 0 < n ->
  exists d b1 t1, run_plain (up_prog b n) t = (Ok (Ok d, b1), t1) /\
    ((d = [] /\ at_end b1 body) \/
     (0 < zlen d <= n /\ exists body', body = d ++ body' /\ (live b1 t1 body' rest \/ at_end b1 body'))).
Proof.
  intros b t body rest n H Hn. pose proof (live_binv _ _ _ _ H) as Hb.
  assert (Hne : nonempty_chunks (t_chunks t)) by (destruct H as [(_ & _ & H & _)|(m & _ & _ & _ & _ & _ & _ & _ & H & _)]; exact H).
  assert (Hlen : forall d b1 t1, run_plain (up_prog b n) t = (Ok (Ok d, b1), t1) -> d <> [] -> 0 < zlen d <= n).
  { intros d b1 t1 E Hd. destruct (okp_value _ _ _ (up_okp b n Hb Hn) _ _ _ Hne E) as (a & Ea & [Ha|(c & Ha)]); injection Ea as <-.
    - destruct Ha as [(Ha & _)|(Ha & _)]; [exact Ha|contradiction].
    - discriminate Ha. }
  rewrite up_prog_run in *. destruct H as [H|(m & H)].
  - destruct (hb_read_chunked up_data b t n body rest up_data_ok H Hn) as (x & b1 & t1 & E & K). unfold up_read in *. rewrite E in *. exists x, b1, t1. split; [reflexivity|].
    destruct K as [(-> & -> & K & _)|(Hx & _ & body' & -> & K)]; [left; split; [reflexivity|split; [exact K|reflexivity]]|right].
    split; [exact (Hlen _ _ _ eq_refl Hx)|]. exists body'. split; [reflexivity|]. left. left. exact K.
  - destruct (hb_read_fixed up_data m b t n body rest H Hn) as (x & b1 & t1 & body' & E & Hx & _ & -> & K). unfold up_read in *. rewrite E in *. exists x, b1, t1. split; [reflexivity|].
    right. split; [exact (Hlen _ _ _ eq_refl Hx)|]. exists body'. split; [reflexivity|]. destruct K as [(-> & K & _)|K]; [right; split; [exact K|reflexivity]|left; right; eauto].
Qed.
Lemma over_up_sim : forall {A} (p : prog A), reads_body p -> forall b t body rest miss, nonempty_chunks (t_chunks t) ->
  live b (plus t miss) body rest \/ at_end b body ->
  exists cs err, nonempty_chunks cs /\ fst (run_plain (over_up p b) t) = Ok (fst (run_plain p (mktr cs err))) /\
    ((err = ERROR_HTTP_RES_EOF /\ concat cs = body) \/ (err = t_err t /\ miss <> [] /\ exists tl, body = concat cs ++ tl)).
Proof.
  assert (T0 : forall c n, 0 < n -> t_read (mktr [] c) n = (Err c, mktr [] c)).
  { intros c n Hn. unfold t_read. replace (n <=? 0) with false by (symmetry; apply Z.leb_gt; lia). reflexivity. }
  intros A p H. induction H as [a|n k ke Hn Hk IH Hke (n' & k' & ke' & E & Hn' & Hke')]; intros b t body rest miss Hne Hb; cbn [over_up].
  - exists (match body with [] => [] | _ => [body] end), ERROR_HTTP_RES_EOF. split; [destruct body; constructor; [discriminate|constructor]|]. split; [reflexivity|].
    left. split; [reflexivity|]. destruct body; [reflexivity|]. cbn [concat]. apply app_nil_r.
  - assert (Hend : forall b1, hb_eof b1 = true -> exists a, ke ERROR_HTTP_RES_EOF = PRet a /\ over_up (k []) b1 = PRet (Ok a) /\
      run_plain (PRead n k ke) (mktr [] ERROR_HTTP_RES_EOF) = (Ok a, mktr [] ERROR_HTTP_RES_EOF)).
    { intros b1 He. destruct (Hke ERROR_HTTP_RES_EOF) as (a & Ha). exists a. split; [exact Ha|]. split.
      - rewrite E. cbn [over_up]. rewrite (up_eof _ _ He). cbn [pbind]. rewrite Hke', Ha. reflexivity.
      - cbn [run_plain]. rewrite T0 by exact Hn. rewrite Ha. reflexivity. }
    rewrite run_plain_bind. destruct Hb as [Hb|(Hb & ->)].
    + destruct (cut_read _ _ _ (up_okp b n (live_binv _ _ _ _ Hb) Hn) t miss Hne) as [(x & t1 & A1 & A2 & A3 & A4)|(Hm & [r b1] & t1 & A1 & A2)].
      * rewrite A1. destruct (up_live_step _ _ _ _ _ Hb Hn) as (d & b1 & t2 & B1 & B2). rewrite A2 in B1. injection B1 as -> <-.
        destruct B2 as [(-> & B2 & ->)|(Hd & body' & -> & B2)].
        { destruct (Hend b1 B2) as (a & Ha & Hz & Hr). exists [], ERROR_HTTP_RES_EOF. split; [constructor|]. rewrite Hz, Hr. split; [reflexivity|]. left. split; reflexivity. }
        destruct (IH d Hd b1 t1 body' rest miss A3 B2) as (cs & err & C1 & C2 & C3). exists (d :: cs), err.
        split; [constructor; [intros ->; change (zlen (@nil Z)) with 0 in Hd; lia|exact C1]|]. split.
        { rewrite C2. cbn [run_plain]. unfold t_read. cbn [t_chunks t_err]. replace (n <=? 0) with false by (symmetry; apply Z.leb_gt; lia).
          replace (zlen d <=? n) with true by (symmetry; apply Z.leb_le; lia). reflexivity. }
        cbn [concat]. destruct C3 as [(-> & <-)|(-> & Hm & tl & ->)]; [left; auto|right]. split; [congruence|]. split; [exact Hm|]. exists tl. rewrite app_assoc. reflexivity.
      * rewrite A1. unfold rerr in A2. cbn in A2. subst r. destruct (Hke (t_err t)) as (a & Ha). rewrite Ha. cbn [over_up run_plain].
        exists [], (t_err t). split; [constructor|]. rewrite T0 by exact Hn. rewrite Ha. split; [reflexivity|]. right. split; [reflexivity|]. split; [exact Hm|]. exists body. reflexivity.
    + rewrite (up_eof _ _ Hb). cbn [run_plain]. destruct (Hke ERROR_HTTP_RES_EOF) as (a & Ha). rewrite Ha.
      exists [], ERROR_HTTP_RES_EOF. split; [constructor|]. rewrite T0 by exact Hn. rewrite Ha. split; [reflexivity|]. left. split; reflexivity.
Qed.
Lemma over_up_unframed : forall {A} (p : prog A) n m t cl, cl < 0 -> 
  fst (run_plain (over_up p (mkhb false cl false n m 0)) t) = Ok (fst (run_plain p t)).
Proof.
  intros A p. induction p as [a|n k IH ke IHe]; intros nr m t cl Hcl; cbn [over_up]; [reflexivity|].
  rewrite run_plain_bind. unfold up_prog. cbn [hb_eof hb_chunked hb_cl hb_nread hb_size hb_left]. replace (0 <=? cl) with false by (symmetry; apply Z.leb_gt; lia). cbv zeta.
  cbn [run_plain]. destruct (t_read_res t n) as [(d & t1 & ->)|(c & t1 & ->)]; cbn [run_plain]; [apply IH|apply IHe]; exact Hcl.
Qed.

(** ** Snapshots of snapshots *)
Definition same_parts (a b : list pkt) : Prop :=
  last_such is_script a = last_such is_script b /\ last_such is_audio_seq a = last_such is_audio_seq b /\
  last_such is_video_seq a = last_such is_video_seq b /\ from_last_key (filter is_media a) = from_last_key (filter is_media b).
Lemma same_parts_snoc : forall a b x, same_parts a b -> same_parts (a ++ [x]) (b ++ [x]).
Proof.
  intros a b x (H1 & H2 & H3 & H4). unfold same_parts. rewrite !last_such_snoc, !filter_app, H1, H2, H3. repeat split; try reflexivity.
  cbn [filter]. destruct (is_media x); [|rewrite !app_nil_r; exact H4]. rewrite !from_last_key_snoc, H4. reflexivity.
Qed.
Lemma same_parts_app : forall m a b, same_parts a b -> same_parts (a ++ m) (b ++ m).
Proof.
  induction m as [|x m IH]; intros a b H; [rewrite !app_nil_r; exact H|]. replace (a ++ x :: m) with ((a ++ [x]) ++ m) by (rewrite <- app_assoc; reflexivity).
  replace (b ++ x :: m) with ((b ++ [x]) ++ m) by (rewrite <- app_assoc; reflexivity). apply IH, same_parts_snoc, H.
Qed.
Lemma same_parts_snapshot : forall a b, same_parts a b -> gop_snapshot a = gop_snapshot b.
Proof. intros a b (H1 & H2 & H3 & H4). unfold gop_snapshot. rewrite H1, H2, H3, H4. reflexivity. Qed.
(** The shape of a snapshot. *)
Definition parted (s a v m : list pkt) : Prop :=
  (s = [] \/ exists x, s = [x] /\ is_script x = true) /\ (a = [] \/ exists x, a = [x] /\ is_audio_seq x = true) /\
  (v = [] \/ exists x, v = [x] /\ is_video_seq x = true) /\
  (m = [] \/ exists k r, m = k :: r /\ is_keyframe k = true /\ existsb is_keyframe r = false /\ Forall (fun p => is_media p = true) m).
Lemma kinds : forall x, (is_script x = true -> is_audio_seq x = false /\ is_video_seq x = false /\ is_media x = false) /\
  (is_audio_seq x = true -> is_script x = false /\ is_video_seq x = false /\ is_media x = false) /\
  (is_video_seq x = true -> is_script x = false /\ is_audio_seq x = false /\ is_media x = false) /\
  (is_media x = true -> is_script x = false /\ is_audio_seq x = false /\ is_video_seq x = false).
Proof.
  intros x. unfold is_media, is_script, is_audio_seq, is_video_seq, is_audio, is_video.
  destruct (Z.eqb_spec (p_stream x) AV_STREAM_TYPE_SUBTITLE) as [->|K1]; [cbn; intuition discriminate|].
  destruct (Z.eqb_spec (p_stream x) AV_STREAM_TYPE_AUDIO) as [->|K2]; [cbn; destruct (p_ptype x =? 0); cbn; intuition discriminate|].
  destruct (Z.eqb_spec (p_stream x) AV_STREAM_TYPE_VIDEO) as [_|K3]; [cbn; destruct (p_ptype x =? 0); cbn; intuition discriminate|].
  cbn. intuition discriminate.
Qed.
Lemma last_such_none : forall f m, Forall (fun p => f p = false) m -> last_such f m = None.
Proof. intros f m H. induction H as [|x m Hx H IH]; [reflexivity|]. cbn [last_such]. rewrite IH, Hx. reflexivity. Qed.
Lemma last_such_app : forall f a b, last_such f (a ++ b) = match last_such f b with Some x => Some x | None => last_such f a end.
Proof.
  intros f a b. induction a as [|x a IH]; cbn [app last_such]; [destruct (last_such f b); reflexivity|]. rewrite IH. destruct (last_such f b); [reflexivity|]. reflexivity.
Qed.
Lemma last_such_true : forall f h x, last_such f h = Some x -> f x = true.
Proof.
  intros f h. induction h as [|y h IH]; intros x H; [discriminate|]. cbn [last_such] in H. destruct (last_such f h) as [z|]; [injection H as <-; auto|].
  destruct (f y) eqn:E; [injection H as <-; exact E|discriminate].
Qed.
Lemma snapshot_parted : forall h, parted (maybe (last_such is_script h)) (maybe (last_such is_audio_seq h)) (maybe (last_such is_video_seq h)) (from_last_key (filter is_media h)).
Proof.
  intros h. assert (M : forall f, maybe (last_such f h) = [] \/ exists x, maybe (last_such f h) = [x] /\ f x = true).
  { intros f. destruct (last_such f h) as [x|] eqn:E; [right; exists x; split; [reflexivity|exact (last_such_true _ _ _ E)]|left; reflexivity]. }
  split; [apply M|]. split; [apply M|]. split; [apply M|]. destruct (existsb is_keyframe (filter is_media h)) eqn:E; [|left; apply from_last_key_nokey; exact E].
  right. destruct (from_last_key_key _ E) as (k & r & E1 & E2 & E3). exists k, r. rewrite E1. split; [reflexivity|]. split; [exact E2|]. split; [exact E3|].
  rewrite <- E1. destruct (from_last_key_suffix (filter is_media h)) as (old & Ho). apply Forall_forall. intros p Hp.
  assert (Hin : In p (filter is_media h)) by (rewrite Ho; apply in_or_app; right; exact Hp). apply filter_In in Hin. tauto.
Qed.
Lemma parted_last : forall s a v m, parted s a v m ->
  maybe (last_such is_script (s ++ a ++ v ++ m)) = s /\ maybe (last_such is_audio_seq (s ++ a ++ v ++ m)) = a /\
  maybe (last_such is_video_seq (s ++ a ++ v ++ m)) = v /\ from_last_key (filter is_media (s ++ a ++ v ++ m)) = m.
Proof.
  intros s a v m (Hs & Ha & Hv & Hm).
  assert (Fm : Forall (fun p => is_media p = true) m) by (destruct Hm as [->|(k & r & _ & _ & _ & H)]; [constructor|exact H]).
  assert (N1 : last_such is_script m = None) by (apply last_such_none; eapply Forall_impl; [|exact Fm]; intros p Hp; apply (kinds p) in Hp; tauto).
  assert (N2 : last_such is_audio_seq m = None) by (apply last_such_none; eapply Forall_impl; [|exact Fm]; intros p Hp; apply (kinds p) in Hp; tauto).
  assert (N3 : last_such is_video_seq m = None) by (apply last_such_none; eapply Forall_impl; [|exact Fm]; intros p Hp; apply (kinds p) in Hp; tauto).
  assert (N4 : filter is_media m = m). { clear -Fm. induction Fm as [|x m Hx F IH]; [reflexivity|]. cbn [filter]. rewrite Hx, IH. reflexivity. }
  assert (N5 : from_last_key m = m). { destruct Hm as [->|(k & r & -> & Hk & Hr & _)]; [reflexivity|]. cbn [from_last_key]. rewrite Hr, Hk. reflexivity. }
  rewrite !last_such_app, !filter_app, N1, N2, N3, N4.
  assert (E : forall x, is_script x = true -> last_such is_script [x] = Some x /\ last_such is_audio_seq [x] = None /\ last_such is_video_seq [x] = None /\ filter is_media [x] = []).
  { intros x H. cbn. rewrite H. apply (kinds x) in H as (-> & -> & ->). auto. }
  assert (E2 : forall x, is_audio_seq x = true -> last_such is_script [x] = None /\ last_such is_audio_seq [x] = Some x /\ last_such is_video_seq [x] = None /\ filter is_media [x] = []).
  { intros x H. cbn. rewrite H. apply (kinds x) in H as (-> & -> & ->). auto. }
  assert (E3 : forall x, is_video_seq x = true -> last_such is_script [x] = None /\ last_such is_audio_seq [x] = None /\ last_such is_video_seq [x] = Some x /\ filter is_media [x] = []).
  { intros x H. cbn. rewrite H. apply (kinds x) in H as (-> & -> & ->). auto. }
  destruct Hs as [->|(x1 & -> & H1)]; [|destruct (E _ H1) as (-> & -> & -> & ->)];
  (destruct Ha as [->|(x2 & -> & H2)]; [|destruct (E2 _ H2) as (-> & -> & -> & ->)]);
  (destruct Hv as [->|(x3 & -> & H3)]; [|destruct (E3 _ H3) as (-> & -> & -> & ->)]); cbn [last_such filter app maybe]; rewrite ?N5; auto.
Qed.
Lemma parted_snapshot : forall s a v m, parted s a v m -> gop_snapshot (s ++ a ++ v ++ m) = s ++ a ++ v ++ m.
Proof. intros s a v m H. unfold gop_snapshot. destruct (parted_last _ _ _ _ H) as (-> & -> & -> & ->). reflexivity. Qed.
Lemma parted_cut : forall s a v m p x, parted s a v m -> p ++ [x] = s ++ a ++ v ++ m -> exists s' a' v' m', parted s' a' v' m' /\ p = s' ++ a' ++ v' ++ m'.
Proof.
  intros s a v m p x (Hs & Ha & Hv & Hm) E. destruct m as [|y m _] using rev_ind.
  - rewrite app_nil_r in E. destruct Hv as [->|(xv & -> & H3)].
    + rewrite app_nil_r in E. destruct Ha as [->|(xa & -> & H2)].
      * rewrite app_nil_r in E. destruct Hs as [->|(xs & -> & H1)]; [destruct p; discriminate|]. change [xs] with ([] ++ [xs]) in E. apply app_inj_tail in E as (-> & _).
        exists [], [], [], []. split; [repeat split; left; reflexivity|reflexivity].
      * apply app_inj_tail in E as (-> & _). exists s, [], [], []. split; [repeat split; try (left; reflexivity); exact Hs|rewrite !app_nil_r; reflexivity].
    + rewrite app_assoc in E. apply app_inj_tail in E as (-> & _). exists s, a, [], []. split; [repeat split; try (left; reflexivity); assumption|rewrite !app_nil_r; reflexivity].
  - rewrite !app_assoc in E. apply app_inj_tail in E as (-> & _). exists s, a, v, m. split; [|rewrite !app_assoc; reflexivity]. split; [exact Hs|]. split; [exact Ha|]. split; [exact Hv|].
    destruct Hm as [Hm|(k & r & Hm & Hk & Hr & HF)]; [destruct m; discriminate|]. destruct m as [|k' r']; [left; reflexivity|right]. cbn [app] in Hm. injection Hm as -> <-.
    exists k, r'. split; [reflexivity|]. split; [exact Hk|]. rewrite existsb_app in Hr. apply orb_false_iff in Hr. split; [tauto|]. inversion_clear HF as [|? ? Hh Ht]. constructor; [exact Hh|]. apply Forall_app in Ht. tauto.
Qed.
Lemma initial_parted : forall q p s a v m, parted s a v m -> p ++ q = s ++ a ++ v ++ m -> exists s' a' v' m', parted s' a' v' m' /\ p = s' ++ a' ++ v' ++ m'.
Proof.
  induction q as [|x q IH] using rev_ind; intros p s a v m H E; [rewrite app_nil_r in E; eauto 8|].
  rewrite app_assoc in E. destruct (parted_cut _ _ _ _ _ _ H E) as (s' & a' & v' & m' & H' & E'). exact (IH _ _ _ _ _ H' E').
Qed.
(** A first part of a snapshot is its own snapshot. *)
Lemma snapshot_initial : forall h p, initial p (gop_snapshot h) -> gop_snapshot p = p.
Proof.
  intros h p (q & E). destruct (initial_parted q p _ _ _ _ (snapshot_parted h) E) as (s & a & v & m & H & ->). exact (parted_snapshot _ _ _ _ H).
Qed.
(** A newcomer to a stream that starts with a snapshot gets what a newcomer to the
    first stream would have got. *)
Lemma snapshot_same : forall h, same_parts (gop_snapshot h) h.
Proof.
  intros h. assert (M : forall f g, maybe (last_such f g) = maybe (last_such f h) -> last_such f g = last_such f h).
  { intros f g. destruct (last_such f g), (last_such f h); cbn; congruence. }
  destruct (parted_last _ _ _ _ (snapshot_parted h)) as (E1 & E2 & E3 & E4). repeat split; try (apply M); assumption.
Qed.
Lemma snapshot_again : forall pre mid, gop_snapshot (gop_snapshot pre ++ mid) = gop_snapshot (pre ++ mid).
Proof. intros pre mid. apply same_parts_snapshot, same_parts_app, snapshot_same. Qed.

Lemma initial_refl : forall {A} (l : list A), initial l l.
Proof. intros A l. exists []. apply app_nil_r. Qed.
Lemma initial_trans : forall {A} (a b c : list A), initial a b -> initial b c -> initial a c.
Proof. intros A a b c (x & <-) (y & <-). exists (x ++ y). apply app_assoc. Qed.
Lemma view_initial : forall ps q q', view ps q -> initial q' q -> view ps q'.
Proof. intros ps q q' (pre & post & -> & H) Hi. exists pre, post. split; [reflexivity|]. exact (initial_trans _ _ _ Hi H). Qed.
Lemma split_app : forall {A} (a b c d : list A), a ++ b = c ++ d -> (exists x, c = a ++ x /\ b = x ++ d) \/ (exists x, a = c ++ x /\ d = x ++ b).
Proof.
  intros A a. induction a as [|y a IH]; intros b c d H; [left; exists c; auto|]. destruct c as [|z c]; [right; exists (y :: a); auto|].
  cbn [app] in H. injection H as -> H. destruct (IH _ _ _ H) as [(x & -> & ->)|(x & -> & ->)]; [left|right]; exists x; auto.
Qed.
Lemma view_trans : forall ps q q2, view ps q -> view q q2 -> view ps q2.
Proof.
  intros ps q q2 (pre & post & -> & (z & Hz)) (pre2 & post2 & -> & H2). rewrite <- app_assoc in Hz. apply split_app in Hz as [(x & Hx & Hy)|(x & Hx & Hy)].
  - assert (Hp : gop_snapshot pre2 = pre2) by (apply (snapshot_initial pre); exists x; symmetry; exact Hx). rewrite Hp in H2.
    exists pre, post. split; [reflexivity|]. rewrite Hx. apply (initial_trans _ _ _ H2). exists z. rewrite <- !app_assoc. f_equal. exact Hy.
  - subst pre2 post. rewrite snapshot_again in H2. exists (pre ++ x), (post2 ++ z). split; [rewrite app_assoc; reflexivity|]. apply (initial_trans _ _ _ H2). exists z. apply eq_sym, app_assoc.
Qed.

(** ** A whole pull *)
(** The demuxer over the body of an answer that brings [fh ++ s], or a part of it. *)
Lemma over_answer : forall fuel fill ch cl t miss wire body fh s e', nonempty_chunks (t_chunks t) -> t_stream t ++ miss = wire -> answer_body ch cl wire body ->
  body = fh ++ s -> zlen fh = 9 -> take 3 fh = [0x46; 0x4C; 0x56] -> bytes s -> 15 <= zlen fill < 2 ^ 62 ->
  exists ps x qs, fst (run_plain (over_up (flv_decode_prog fuel fill) (hb_new ch cl)) t) = Ok (Ok (ps, x)) /\
    fst (spec_flv_all fuel (zlen fill) e' s) = ps ++ qs /\
    (miss = [] -> let e := body_end ch cl (t_err t) in ps = fst (spec_flv_all fuel (zlen fill) e s) /\ flv_end_ok x (snd (spec_flv_all fuel (zlen fill) e s))).
Proof.
  intros fuel fill ch cl t miss wire body fh s e' Hn Hst Hb Hbody H9 Hm Hby Hf. cbv zeta.
  assert (Hend : (exists more, S_Https.framed (ch, cl) wire body more) -> body_end ch cl (t_err t) = ERROR_HTTP_RES_EOF).
  { intros (more & K). unfold body_end. destruct ch; [reflexivity|]. unfold S_Https.framed in K. cbn [fst snd] in K. destruct K as (_ & K & _). pose proof (zlen_nonneg body). replace (0 <=? cl) with true by lia. reflexivity. }
  assert (Hsim : exists cs err tl, nonempty_chunks cs /\ fst (run_plain (over_up (flv_decode_prog fuel fill) (hb_new ch cl)) t) = Ok (fst (run_plain (flv_decode_prog fuel fill) (mktr cs err))) /\
    concat cs ++ tl = fh ++ s /\ (miss = [] -> tl = [] /\ err = body_end ch cl (t_err t))).
  { destruct Hb as [Hb|(-> & Hcl & ->)].
    - specialize (Hend Hb). destruct Hb as (more & Hb). rewrite <- Hst, <- plus_stream in Hb. pose proof (framed_live _ _ _ _ _ Hb (plus_ne _ miss Hn)) as L.
      destruct (over_up_sim _ (flv_decode_okb fuel fill (proj2 Hf)) _ t body more miss Hn (or_introl L)) as (cs & err & B1 & B2 & B3).
      destruct B3 as [(-> & B3)|(_ & Hmm & tl & B3)].
      + exists cs, ERROR_HTTP_RES_EOF, []. rewrite app_nil_r. rewrite Hend. repeat split; auto; congruence.
      + exists cs, err, tl. repeat split; auto; congruence.
    - exists (t_chunks t), (t_err t), miss. split; [exact Hn|]. split; [destruct t; apply over_up_unframed; exact Hcl|]. split; [rewrite <- Hbody, <- Hst; reflexivity|].
      intros ->. split; [reflexivity|]. unfold body_end. cbn [orb]. replace (0 <=? cl) with false by lia. reflexivity. }
  destruct Hsim as (cs & err & tl & S1 & S2 & S3 & S4).
  destruct (flv_decode_prefix fuel fill cs err fh s tl Hf S1 S3 H9 Hm Hby e') as (ps & x & qs & C1 & C2 & C3).
  exists ps, x, qs. rewrite S2, C1. split; [reflexivity|]. split; [exact C2|]. intros E. destruct (S4 E) as (-> & <-). exact (C3 eq_refl).
Qed.
(** The head of the answer, whole or not. *)
Lemma read_head_cut : forall t miss h wire head t1, nonempty_chunks (t_chunks t) -> is_head h -> zlen h <= MAX_HEADER -> t_stream t ++ miss = h ++ wire ->
  read_head t MAX_HEADER = (Ok head, t1) -> head = h /\ nonempty_chunks (t_chunks t1) /\ t_err t1 = t_err t /\ t_stream t1 ++ miss = wire.
Proof.
  intros t miss h wire head t1 Hn Hh Hmx Hst H.
  destruct (cut_read _ _ _ (head_okp MAX_HEADER) t miss Hn) as [(x & t2 & A1 & A2 & A3 & A4)|(_ & a & t2 & A1 & A2)]; rewrite head_prog_run, H in A1.
  - injection A1 as <- <-. rewrite head_prog_run in A2. rewrite <- plus_stream in Hst.
    destruct (read_head_ok h _ _ MAX_HEADER (is_head_shape h Hh) (plus_ne t miss Hn) Hst Hmx) as (t3 & B1 & B2 & _). rewrite B1 in A2. injection A2 as <- ->.
    rewrite plus_stream in B2. auto.
  - injection A1 as <- <-. destruct A2 as (c & A2). discriminate A2.
Qed.
Lemma edge_partial : forall lib fmts decode q t o miss h wire n ri f fuel fill body fh s x ps o1 e',
  nonempty_chunks (t_chunks t) -> is_head h -> zlen h <= MAX_HEADER -> t_stream t ++ miss = h ++ wire -> lib h = (n, ri) ->
  fmt_find fmts (rq_ext q) = Ok (Some f) -> decode f = flv_decode_prog fuel fill -> answer_body (ri_chunked ri) (ri_cl ri) wire body ->
  body = fh ++ s -> zlen fh = 9 -> take 3 fh = [0x46; 0x4C; 0x56] -> bytes s -> 15 <= zlen fill < 2 ^ 62 ->
  edge_http lib fmts decode q true t o = (x, Some ps, o1) -> initial ps (fst (spec_flv_all fuel (zlen fill) e' s)).
Proof.
  intros lib fmts decode q t o miss h wire n ri f fuel fill body fh s x ps o1 e' Hn Hh Hmx Hst Hlib Hfm Hdec Hb Hbody H9 Hm Hby Hf H.
  unfold edge_http, up_open in H. cbn [negb] in H. destruct (sk_write o (pull_text q)) as [[u|c| |] o2]; try discriminate.
  2:{ destruct (negb (c =? 0)); discriminate. }
  destruct (read_head t MAX_HEADER) as [[head|c| |] t1] eqn:E; try discriminate. 2:{ destruct (negb (c =? 0)); discriminate. }
  destruct (read_head_cut _ _ _ _ _ _ Hn Hh Hmx Hst E) as (-> & E2 & E3 & E4). rewrite Hlib in H. destruct (n <=? 0).
  { destruct (negb (n =? 0)); discriminate. }
  cbn [Z.eqb negb] in H. destruct (negb (ri_status ri =? 200)); [discriminate|]. rewrite Hfm, Hdec in H.
  destruct (over_answer fuel fill _ _ t1 miss wire body fh s e' E2 E4 Hb Hbody H9 Hm Hby Hf) as (ps' & x' & qs & A1 & A2 & _).
  destruct (run_plain (over_up (flv_decode_prog fuel fill) (hb_new (ri_chunked ri) (ri_cl ri))) t1) as [y t2]. cbn [fst] in A1. subst y. injection H as _ <- _.
  exists qs. symmetry. exact A2.
Qed.
Lemma edge_whole : forall lib fmts decode q t o h wire n ri f fuel fill body fh s o1,
  nonempty_chunks (t_chunks t) -> is_head h -> zlen h <= MAX_HEADER -> t_stream t = h ++ wire -> lib h = (n, ri) -> 0 < n -> ri_status ri = 200 ->
  fmt_find fmts (rq_ext q) = Ok (Some f) -> decode f = flv_decode_prog fuel fill -> answer_body (ri_chunked ri) (ri_cl ri) wire body ->
  body = fh ++ s -> zlen fh = 9 -> take 3 fh = [0x46; 0x4C; 0x56] -> bytes s -> 15 <= zlen fill < 2 ^ 62 -> sk_write o (pull_text q) = (Ok tt, o1) ->
  let e := body_end (ri_chunked ri) (ri_cl ri) (t_err t) in
  exists x, edge_http lib fmts decode q true t o = (match x with Ok _ => Ok 0 | Err e => Ok e | UB => UB | Fuel => Fuel end, Some (fst (spec_flv_all fuel (zlen fill) e s)), o1) /\
    flv_end_ok x (snd (spec_flv_all fuel (zlen fill) e s)).
Proof.
  intros lib fmts decode q t o h wire n ri f fuel fill body fh s o1 Hn Hh Hmx Hst Hlib Hpos Hs200 Hfm Hdec Hb Hbody H9 Hm Hby Hf Hw. cbv zeta.
  destruct (read_head_ok h _ t MAX_HEADER (is_head_shape h Hh) Hn Hst Hmx) as (t1 & A1 & A2 & A3 & A4).
  destruct (over_answer fuel fill _ _ t1 [] wire body fh s 0 A3 ltac:(rewrite app_nil_r; exact A2) Hb Hbody H9 Hm Hby Hf) as (ps & x & qs & B1 & _ & B2).
  destruct (B2 eq_refl) as (-> & B3). rewrite A4 in *. exists x. split; [|exact B3].
  unfold edge_http, up_open. cbn [negb]. rewrite Hw, A1, Hlib. replace (n <=? 0) with false by lia. cbn [Z.eqb negb]. rewrite Hs200. cbn [Z.eqb Pos.eqb negb]. rewrite Hfm, Hdec.
  destruct (run_plain (over_up (flv_decode_prog fuel fill) (hb_new (ri_chunked ri) (ri_cl ri))) t1) as [y t2]. cbn [fst] in B1. subst y. reflexivity.
Qed.
(** Whatever the fuel, a file is read up to some point. *)
Lemma layout_any_fuel : forall cap e ps, cap < 2 ^ 24 -> Forall (flv_transportable cap) ps -> forall fuel prev, initial (fst (spec_flv_all fuel cap e (flv_layout prev ps))) ps.
Proof.
  intros cap e ps Hc. induction ps as [|p ps IH]; intros HF fuel prev; [destruct fuel; exists []; reflexivity|].
  destruct fuel as [|f]; [exists (p :: ps); reflexivity|]. inversion_clear HF as [|? ? Hp HF']. cbn [flv_layout spec_flv_all].
  rewrite spec_flv_next_tag by assumption. match goal with |- context [flv_layout ?z ps] => destruct (IH HF' f z) as (r & Hr); destruct (spec_flv_all f cap e (flv_layout z ps)) as [qs x] end.
  exists r. cbn [fst] in *. cbn [app]. rewrite Hr. reflexivity.
Qed.

(** ** One hop *)
Lemma head200 : forall reason, S_Http.plain (reason 200) -> zlen (reason 200) < 1000 ->
  is_head (response_head reason rsp200) /\ zlen (response_head reason rsp200) <= MAX_HEADER.
Proof.
  intros reason Hp Hl.
  assert (E : response_head reason rsp200 = crlf_lines [str "HTTP/1.1 200 " ++ reason 200; str "Server: sps"] ++ [13; 10]).
  { unfold response_head, crlf_lines. cbn [hr_status hr_chunked hr_cl hr_headers rsp200 flat_map existsb negb app]. change (0 <=? -1) with false. cbv iota.
    change (decs 200) with (str "200"). change crlf with [13; 10]. rewrite <- !app_assoc. reflexivity. }
  rewrite E. split.
  - exists [str "HTTP/1.1 200 " ++ reason 200; str "Server: sps"]. split; [discriminate|]. split; [|reflexivity].
    constructor; [split; [discriminate|]|constructor; [split; [discriminate|apply plain_lit; reflexivity]|constructor]].
    unfold S_Http.plain in *. apply Forall_app. split; [apply plain_lit; reflexivity|exact Hp].
  - unfold crlf_lines. cbn [flat_map]. rewrite !zlen_app. unfold MAX_HEADER.
    change (zlen (str "HTTP/1.1 200 ")) with 13. change (zlen (str "Server: sps")) with 11. change (zlen (@nil Z)) with 0. unfold zlen at 2 3 4. cbn [length]. lia.
Qed.
Lemma head200_read : forall reason lib, S_Http.plain (reason 200) -> reads_response lib (response_head reason rsp200) ->
  exists n fs, 0 < n /\ lib (response_head reason rsp200) = (n, mkri 200 (-1) false fs).
Proof.
  intros reason lib Hp Hl. pose proof (response_head_message reason rsp200 [] ltac:(cbn; lia) Hp (Forall_nil _)) as M. rewrite app_nil_r in M.
  destruct (Hl (decs 200) 200 (reason 200) _ M (decs_ok 200 ltac:(lia)) eq_refl eq_refl) as (n & Hn & E). eauto.
Qed.
Lemma until_empty_initial : forall ds : list (list pkt), initial (concat (until_empty ds)) (concat ds).
Proof.
  induction ds as [|[|p d] ds (r & IH)]; cbn [until_empty concat]; [exists []; reflexivity|eexists; reflexivity|]. exists r. rewrite <- app_assoc. f_equal. exact IH.
Qed.
Lemma initial_forall : forall {A} (P : A -> Prop) a b, initial a b -> Forall P b -> Forall P a.
Proof. intros A P a b (x & <-) H. apply Forall_app in H. tauto. Qed.
Lemma pulled_initial : forall cap ds ps, 15 <= cap < 2 ^ 24 -> Forall (flv_transportable cap) (concat ds) -> pulled cap ds ps -> initial ps (concat ds).
Proof.
  intros cap ds ps Hc HF (reason & ins & outs & h & r & e & sk & ret & sk1 & bts & lib & fmts & f & decode & fuel & fill & q & t & o & x & ps' & o1 &
    Hm & Ht & Hfm & Hd & He1 & He2 & Hp & Hpl & Hs & Hsk & Hn & Hi & Hlib & Hfi & Hdec & Hfill & Hedge & Hps).
  pose proof (initial_forall _ _ _ (until_empty_initial ds) HF) as HF'.
  destruct (http_player_ends reason ins outs h r e sk Hm Ht Hfm) as (ret' & sk1' & sent & A1 & A2 & A3); [|exact He1|exact He2|].
  { rewrite Hd. eapply Forall_impl; [|exact HF']. intros p Hpp. eapply transportable_fits; [|exact Hpp]. lia. }
  rewrite Hd in A3. rewrite Hs in A1. injection A1 as <- <-. assert (Hb : bts = sent) by (apply (app_inv_head (sk_out sk)); congruence). subst sent.
  assert (Hfull : initial bts (response_head reason rsp200 ++ flv_default_header ++ flv_layout 0 (concat (until_empty ds)))).
  { destruct A3 as [(_ & _ & ->)|[(_ & _ & ->)|(_ & _ & A3)]]; [apply initial_refl|apply initial_refl|exact A3]. }
  destruct (initial_trans _ _ _ Hi Hfull) as (miss & Hmiss). destruct (head200 reason Hp Hpl) as (K1 & K2).
  destruct (head200_read reason lib Hp Hlib) as (n & fs & Hnn & Hri).
  apply (initial_trans _ _ _ Hps). apply (initial_trans _ (concat (until_empty ds)) _); [|apply until_empty_initial].
  refine (initial_trans _ _ _ (edge_partial lib fmts decode q t o miss _ _ n _ f fuel fill _ flv_default_header (flv_layout 0 (concat (until_empty ds))) x ps' o1 0
    Hn K1 K2 Hmiss Hri Hfi Hdec _ eq_refl eq_refl eq_refl (flv_layout_bytes _ _ HF' 0) ltac:(lia) Hedge) _).
  - right. cbn. split; [reflexivity|]. split; [lia|reflexivity].
  - rewrite Hfill. apply layout_any_fuel; [lia|exact HF'].
Qed.
Lemma served_view : forall ps ds, served ps ds -> view ps (concat ds).
Proof.
  intros ps ds (shape & os & s & post & pre & v & a & name & i & Hk & He & Hev & Hlv & Hown & Hps & Hds).
  destruct (viewer_stream _ _ _ _ _ _ _ _ Hk He Hev Hlv) as (i' & k & vx & Ho & _ & _ & Hgv). rewrite Hown in Ho. injection Ho as <- <-. cbn [snapshot] in Hgv.
  exists (puts i 0 pre), (puts i 0 post). split; [rewrite <- Hps, puts_app, puts_skip; reflexivity|]. exists (v_queue vx). rewrite <- Hds, polls_given. exact Hgv.
Qed.
Lemma view_in : forall ps q p, view ps q -> In p q -> In p ps.
Proof.
  intros ps q p (pre & post & -> & (z & Hz)) Hp. assert (Hi : In p (gop_snapshot pre ++ post)) by (rewrite <- Hz; apply in_or_app; left; exact Hp).
  apply in_app_or in Hi as [Hi|Hi]; apply in_or_app; [left; apply gop_snapshot_in; exact Hi|right; exact Hi].
Qed.
Lemma view_forall : forall (P : pkt -> Prop) ps q, view ps q -> Forall P ps -> Forall P q.
Proof. intros P ps q H HF. rewrite Forall_forall in *. intros p Hp. apply HF. exact (view_in _ _ _ H Hp). Qed.
Lemma cluster_view : forall cap n ps ds, 15 <= cap < 2 ^ 24 -> Forall (flv_transportable cap) ps -> cluster cap n ps ds -> view ps (concat ds).
Proof.
  intros cap n ps ds Hc HF H. induction H as [ps ds H|n ps ds ps' ds' H IH Hp Hs]; [exact (served_view _ _ H)|]. specialize (IH HF).
  pose proof (pulled_initial _ _ _ Hc (view_forall _ _ _ IH HF) Hp) as Hi. exact (view_trans _ _ _ (view_initial _ _ _ IH Hi) (served_view _ _ Hs)).
Qed.
(** For the examples. *)
Lemma cut_digits : forall a b x y, ~ In 32 a -> ~ In 32 b -> a ++ 32 :: x = b ++ 32 :: y -> a = b.
Proof.
  induction a as [|c a IH]; intros b x y Ha Hb H; destruct b as [|d b]; [reflexivity| | |]; cbn [app] in H; injection H as H1 H2.
  - subst d. destruct Hb. left. reflexivity.
  - subst c. destruct Ha. left. reflexivity.
  - subst d. f_equal. apply (IH b x y); [intros K; apply Ha; right; exact K|intros K; apply Hb; right; exact K|exact H2].
Qed.
Lemma status_200 : forall ds re status, str "HTTP/1.1 200 OK" = str "HTTP/1.1 " ++ ds ++ str " " ++ re -> dec_number ds status -> status = 200.
Proof.
  intros ds re status H D. change (str "HTTP/1.1 200 OK") with (str "HTTP/1.1 " ++ str "200" ++ 32 :: str "OK") in H. apply app_inv_head in H.
  change (str " " ++ re) with (32 :: re) in H. pose proof (dec_number_chars _ _ D) as Hc. apply cut_digits in H.
  - rewrite <- H in D. apply (dec_number_fun _ _ D). exact (decs_ok 200 ltac:(lia)).
  - apply notin_lit. reflexivity.
  - intros K. rewrite Forall_forall in Hc. specialize (Hc _ K). lia.
Qed.
