(** Lemmas about HTTP over SRT. *)
From Verif Require Import Base M_IO S_IO M_File L_File L_IO M_Text M_Http S_Http L_Http L_Http2 L_Http3 M_Srt S_Srt L_Srt M_Tls S_Tls M_Https S_Https L_Https M_Upload S_Upload L_Upload M_Edge S_Edge L_Edge M_Get S_Get.

(** The bytes in the socket's buffer come first. *)
Definition pending (s : srts) (ms : list (list Z)) : list (list Z) := match unread s with [] => ms | d => d :: ms end.
Lemma arrives_read evs ms c n : arrives evs ms c -> 1316 <= n -> exists l,
  match ms with
  | [] => st_srt_read evs n = (Err c, l)
  | d :: ms' => 1 <= zlen d <= 1316 /\ st_srt_read evs n = (Ok d, l) /\ arrives l ms' c
  end.
Proof.
  intros H Hn. induction H as [d l ms c Hd H IH|l ms c H IH|e l He|l|l]; cbn [st_srt_read].
  - exists l. unfold SRT_PLSIZE. replace (n <? 1316) with false by lia. rewrite take_all by lia. auto.
  - exact IH.
  - exists l. replace (e =? 0) with false by lia. reflexivity.
  - exists l. reflexivity.
  - exists l. reflexivity.
Qed.
Lemma unread_len s : srt_ok s -> zlen (unread s) = ab_end (sr_buf s) - ab_ptr (sr_buf s).
Proof. intros (Hl & _ & Hp). unfold unread. rewrite zlen_take, zlen_drop by lia. lia. Qed.
(** Serving from the buffer is a read of its first piece. *)
Lemma serve_read s n ms c : srt_ok s -> 0 < n -> unread s <> [] -> arrives (sr_evs s) ms c ->
  exists d s1 ms1, srt_serve s n = (Ok d, s1) /\ t_read (mktr (pending s ms) c) n = (Ok d, mktr (pending s1 ms1) c) /\
    srt_ok s1 /\ arrives (sr_evs s1) ms1 c /\ 0 < zlen d <= n.
Proof.
  intros Hok Hn Hu Ha. destruct (srt_serve_spec s n Hok ltac:(lia)) as (d & s1 & E & O1 & V1 & U1 & Z1).
  exists d, s1, ms. split; [exact E|]. rewrite V1.
  assert (0 < zlen (unread s)) as Hp by (destruct (unread s); [contradiction|rewrite zlen_cons; pose proof (zlen_nonneg l); lia]).
  split; [|split; [exact O1|split; [exact Ha|lia]]].
  unfold t_read, pending. cbn [t_chunks t_err]. replace (n <=? 0) with false by lia.
  destruct (unread s) as [|x xs] eqn:Eu; [contradiction|]. rewrite <- U1 in Z1. rewrite zlen_app in Z1. rewrite <- U1 in *.
  destruct (zlen (d ++ unread s1) <=? n) eqn:El.
  - rewrite zlen_app in *. pose proof (zlen_nonneg (unread s1)). assert (unread s1 = []) as -> by (apply zlen_0_nil; lia). rewrite app_nil_r. reflexivity.
  - rewrite zlen_app in *. pose proof (zlen_nonneg (unread s1)). assert (zlen d = n) as Hd by lia.
    rewrite take_app_exact, drop_app_exact by lia. destruct (unread s1) as [|y ys] eqn:E1; [rewrite zlen_nil in *; lia|]. reflexivity.
Qed.
Lemma srt_read_plain s n ms c : srt_ok s -> 0 < n -> arrives (sr_evs s) ms c ->
  (exists d s1 ms1, srt_read s n = (Ok d, s1) /\ t_read (mktr (pending s ms) c) n = (Ok d, mktr (pending s1 ms1) c) /\
    srt_ok s1 /\ arrives (sr_evs s1) ms1 c /\ 0 < zlen d <= n) \/
  (exists s1, srt_read s n = (Err c, s1) /\ t_read (mktr (pending s ms) c) n = (Err c, mktr (pending s ms) c)).
Proof.
  intros Hok Hn Ha. unfold srt_read. pose proof Hok as (Hl & Hrw & Hp).
  rewrite ab_size_small by lia. pose proof (unread_len s Hok) as Hu. destruct (0 <? ab_end (sr_buf s) - ab_ptr (sr_buf s)) eqn:E.
  - left. apply serve_read; auto. intros K. rewrite K, zlen_nil in Hu. lia.
  - assert (unread s = []) as Un by (apply zlen_0_nil; lia). assert (ab_ptr (sr_buf s) = 0 /\ ab_end (sr_buf s) = 0) as (P0 & E0) by lia.
    destruct (n <? SRT_PLSIZE) eqn:Es; unfold SRT_PLSIZE in Es.
    + assert (ab_cap_size (sr_buf s) = 1316) as -> by (unfold ab_cap_size, ab_norewind, ab_cap; rewrite Hrw, P0, Hl; reflexivity).
      destruct (arrives_read _ _ _ 1316 Ha ltac:(lia)) as (l & H). destruct ms as [|d ms]; [|destruct H as (Hd & H & Hl2)].
      * right. rewrite H. eexists. split; [reflexivity|]. unfold t_read, pending. rewrite Un. cbn [t_chunks t_err]. replace (n <=? 0) with false by lia. reflexivity.
      * left. rewrite H. unfold ab_store. replace ((0 <=? 0) && (0 + zlen d <=? ab_cap (sr_buf s))) with true by (unfold ab_cap; lia).
        rewrite (take_0 0) by lia. cbn [app ab_data ab_ptr ab_end ab_rw]. rewrite P0, E0, Hrw.
        set (s0 := mksrt (mkab (d ++ drop (0 + zlen d) (ab_data (sr_buf s))) 0 (0 + zlen d) false) l).
        assert (srt_ok s0) as Hok0.
        { unfold s0, srt_ok. cbn [sr_buf ab_data ab_ptr ab_end ab_rw]. split; [rewrite zlen_app, zlen_drop by lia; lia|]. split; [reflexivity|]. right. lia. }
        assert (unread s0 = d) as Hu0.
        { unfold s0, unread. cbn [sr_buf ab_data ab_ptr ab_end]. rewrite drop_0 by lia. apply take_app_exact. lia. }
        assert (pending s (d :: ms) = pending s0 ms) as ->.
        { unfold pending. rewrite Un, Hu0. destruct d; [rewrite zlen_nil in Hd; lia|reflexivity]. }
        apply serve_read; auto. rewrite Hu0. intros ->. rewrite zlen_nil in Hd. lia.
    + destruct (arrives_read _ _ _ n Ha ltac:(lia)) as (l & H). destruct ms as [|d ms]; [|destruct H as (Hd & H & Hl2)].
      * right. rewrite H. eexists. split; [reflexivity|]. unfold t_read, pending. rewrite Un. cbn [t_chunks t_err]. replace (n <=? 0) with false by lia. reflexivity.
      * left. rewrite H. exists d, (mksrt (sr_buf s) l), ms. split; [reflexivity|]. unfold t_read, pending. change (unread (mksrt (sr_buf s) l)) with (unread s). rewrite Un.
        cbn [t_chunks t_err sr_evs]. replace (n <=? 0) with false by lia. replace (zlen d <=? n) with true by lia. split; [reflexivity|]. split; [exact Hok|]. split; [exact Hl2|lia].
Qed.
Lemma run_srt_plain {A} (p : prog A) : reads_ok p -> forall s ms c, srt_ok s -> arrives (sr_evs s) ms c ->
  fst (run_srt p s) = fst (run_plain p (mktr (pending s ms) c)).
Proof.
  intros H. induction H as [a|n k ke Hn Hk IH Hke]; intros s ms c Hok Ha; cbn [run_srt run_plain]; [reflexivity|].
  destruct (srt_read_plain s n ms c Hok Hn Ha) as [(d & s1 & ms1 & -> & -> & O1 & A1 & Hd)|(s1 & -> & ->)].
  - exact (IH d Hd s1 ms1 c O1 A1).
  - destruct (Hke c) as (a & ->). reflexivity.
Qed.
Lemma srt_open_ok raw evs : zlen raw = 1316 -> srt_ok (srt_open raw evs).
Proof. intros Hr. split; [exact Hr|split; [reflexivity|left; split; reflexivity]]. Qed.
Lemma srt_open_pending raw evs ms : pending (srt_open raw evs) ms = ms.
Proof. unfold pending. rewrite (unread_empty (srt_open raw evs)) by reflexivity. reflexivity. Qed.
Lemma arrives_ne evs ms c : arrives evs ms c -> nonempty_chunks ms.
Proof.
  intros H. induction H as [d l ms c Hd H IH| | | |]; try assumption; try (constructor; fail).
  constructor; [|exact IH]. intros ->. rewrite zlen_nil in Hd. lia.
Qed.
Lemma arrives_nz evs ms c : arrives evs ms c -> c <> 0.
Proof. intros H. induction H; auto; discriminate. Qed.

(** ** The loop of the tool *)
Lemma get_over : forall fuel b t body rest miss, nonempty_chunks (t_chunks t) ->
  (live b (plus t miss) body rest /\ zlen body + 1 < Z.of_nat fuel) \/ (at_end b body /\ (0 < fuel)%nat) ->
  exists ds tl, fst (run_plain (over_up (get_loop fuel) b) t) = Ok (Ok (ds, true)) /\ body = concat ds ++ tl /\ (miss = [] -> tl = []) /\ Forall (fun d => zlen d <= 1023) ds.
Proof.
  assert (B : forall f d b t, fst (run_plain (over_up (pbind (get_loop f) (fun x => PRet (d :: fst x, snd x))) b) t) =
    match fst (run_plain (over_up (get_loop f) b) t) with Ok (Ok (ds, e)) => Ok (Ok (d :: ds, e)) | r => r end).
  { assert (G : forall A C (p : prog A) (g : A -> C) b t, fst (run_plain (over_up (pbind p (fun x => PRet (g x))) b) t) =
      match fst (run_plain (over_up p b) t) with Ok (Ok a) => Ok (Ok (g a)) | Ok (Err c) => Ok (Err c) | Ok UB => Ok UB | Ok Fuel => Ok Fuel | Err c => Err c | UB => UB | Fuel => Fuel end).
    { intros A C p g. induction p as [a|n k IH ke IHe]; intros b t; cbn [pbind over_up]; [reflexivity|]. rewrite !run_plain_bind.
      destruct (run_plain (up_prog b n) t) as [[[[d|c| |] b1]|c| |] t1]; try reflexivity; [apply IH|apply IHe]. }
    intros f d b t. rewrite G. destruct (fst (run_plain (over_up (get_loop f) b) t)) as [[[ds e]|c| |]|c| |]; reflexivity. }
  induction fuel as [|f IH]; intros b t body rest miss Hne Hb; [destruct Hb as [(_ & K)|(_ & K)]; [pose proof (zlen_nonneg body); lia|lia]|].
  cbn [get_loop over_up]. rewrite run_plain_bind. destruct Hb as [(Hb & Hf)|((He & ->) & _)].
  - destruct (cut_read _ _ _ (up_okp b 1023 (live_binv _ _ _ _ Hb) ltac:(lia)) t miss Hne) as [(x & t1 & A1 & A2 & A3 & A4)|(Hm & [r b1] & t1 & A1 & A2)].
    + rewrite A1. destruct (up_live_step _ _ _ _ 1023 Hb ltac:(lia)) as (d & b1 & t2 & B1 & B2). rewrite A2 in B1. injection B1 as -> <-. rewrite B.
      assert (K : zlen d <= 1023 /\ exists body', body = d ++ body' /\ ((live b1 (plus t1 miss) body' rest /\ zlen body' + 1 < Z.of_nat f) \/ (at_end b1 body' /\ (0 < f)%nat))).
      { pose proof (zlen_nonneg body). destruct B2 as [(-> & B2)|(Hd & body' & -> & B2)].
        - split; [rewrite zlen_nil; lia|]. exists body. split; [reflexivity|]. right. split; [exact B2|]. lia.
        - split; [lia|]. exists body'. split; [reflexivity|]. rewrite zlen_app in *. pose proof (zlen_nonneg body'). destruct B2 as [B2|B2]; [left|right]; (split; [exact B2|lia]). }
      destruct K as (Hd1 & body' & -> & K). destruct (IH b1 t1 body' rest miss A3 K) as (ds & tl & E & -> & Hm & Hfit).
      rewrite E. exists (d :: ds), tl. split; [reflexivity|]. split; [cbn [concat]; apply app_assoc|]. split; [exact Hm|]. constructor; assumption.
    + rewrite A1. unfold rerr in A2. cbn in A2. subst r. cbn [over_up run_plain fst]. exists [], body. split; [reflexivity|]. split; [reflexivity|]. split; [intros ->; contradiction|constructor].
  - rewrite (up_eof _ _ He). cbn [run_plain over_up fst]. exists [], []. repeat split; auto.
Qed.
Lemma get_all : forall fuel t, nonempty_chunks (t_chunks t) -> zlen (t_stream t) < Z.of_nat fuel ->
  exists ds, fst (run_plain (get_loop fuel) t) = Ok (ds, true) /\ concat ds = t_stream t /\ Forall (fun d => zlen d <= 1023) ds.
Proof.
  induction fuel as [|f IH]; intros t Hne Hf; [pose proof (zlen_nonneg (t_stream t)); lia|]. cbn [get_loop run_plain].
  destruct (t_read_ok t 1023 Hne ltac:(lia)) as [(Hn & ->)|(d & t1 & -> & Hd & Hd1 & Hs & Hne1 & _)].
  - exists []. cbn [run_plain fst]. split; [reflexivity|]. split; [|constructor]. unfold t_stream. rewrite Hn. reflexivity.
  - rewrite run_plain_bind. assert (0 < zlen d) by (destruct d; [contradiction|rewrite zlen_cons; pose proof (zlen_nonneg d); lia]).
    destruct (IH t1 Hne1) as (ds & E & C & Hfit); [rewrite Hs, zlen_app in Hf; lia|].
    destruct (run_plain (get_loop f) t1) as [r t2]. cbn [fst] in E. subst r. exists (d :: ds). split; [reflexivity|]. split; [cbn [concat]; rewrite Hs, C; reflexivity|constructor; assumption].
Qed.
(** An error of the connection while the head is read. *)
Definition isN {A} (c : Z) (r : res A) : Prop := r = Err (if 0 <? c then - c else c).
Lemma hl_okp2 : forall fuel max state buf, 0 < state -> okp (fun _ => True) isN (hl_prog fuel max state buf).
Proof.
  induction fuel as [|f IH]; intros max state buf Hs; cbn [hl_prog]; [constructor; exact I|].
  destruct (max - zlen buf <? state); [constructor; exact I|]. eapply okp_bind; [apply read_fully_okp, Hs| |].
  - intros r (d & -> & _). destruct (head_next (buf ++ d)) as [o|c| |] eqn:E; try (constructor; exact I).
    destruct o as [n|]; [apply IH, (head_next_pos _ _ E)|constructor; exact I].
  - intros c r ->. eexists. split; [reflexivity|]. reflexivity.
Qed.
(** The whole of get over a plain connection. *)
Lemma get_plain lib fuel t miss h wire n ri body : nonempty_chunks (t_chunks t) -> is_head h -> zlen h <= MAX_HEADER ->
  t_stream t ++ miss = h ++ wire -> lib h = (n, ri) -> 0 < n -> answer_body (ri_chunked ri) (ri_cl ri) wire body ->
  zlen body + 1 < Z.of_nat fuel -> t_err t <> 0 ->
  exists ds r tl, fst (run_plain (get_prog lib fuel) t) = Ok (Ok (ds, r)) /\ body = concat ds ++ tl /\ (miss = [] -> tl = [] /\ r = -2) /\
    (r = -2 \/ r = -1 /\ ds = []) /\ Forall (fun d => zlen d <= 1023) ds.
Proof.
  intros Hne Hh Hx Hst Hl Hn Hb Hf He. unfold get_prog. rewrite run_plain_bind.
  destruct (cut_read _ _ _ (hl_okp2 (S (Z.to_nat MAX_HEADER)) MAX_HEADER 4 [] eq_refl) t miss Hne) as [(x & t1 & A1 & A2 & A3 & A4)|(Hm & a & t1 & A1 & A2)].
  - fold (head_prog MAX_HEADER) in A1, A2. rewrite head_prog_run in A1, A2. rewrite <- plus_stream in Hst.
    destruct (read_head_ok h _ _ MAX_HEADER (is_head_shape h Hh) (plus_ne t miss Hne) Hst Hx) as (t3 & B1 & B2 & _). rewrite B1 in A2. injection A2 as <- ->.
    rewrite head_prog_run. destruct (read_head t MAX_HEADER) as [r0 t0]. injection A1 as -> ->. rewrite Hl. replace (n <? 0) with false by lia. replace (n =? 0) with false by lia.
    rewrite run_plain_bind. rewrite plus_stream in B2.
    assert (K : exists ds tl, fst (run_plain (over_up (get_loop fuel) (hb_new (ri_chunked ri) (ri_cl ri))) t1) = Ok (Ok (ds, true)) /\ body = concat ds ++ tl /\ (miss = [] -> tl = []) /\ Forall (fun d => zlen d <= 1023) ds).
    { destruct Hb as [(more & Hb)|(Hc & Hcl & ->)].
      - rewrite <- B2, <- plus_stream in Hb. exact (get_over fuel _ t1 body more miss A3 (or_introl (conj (framed_live _ _ _ _ _ Hb (plus_ne _ miss A3)) Hf))).
      - rewrite Hc. unfold hb_new. rewrite over_up_unframed by exact Hcl. pose proof (zlen_nonneg miss).
        destruct (get_all fuel t1 A3) as (ds & -> & C & Hfit); [rewrite <- B2, zlen_app in Hf; lia|]. exists ds, miss. rewrite C. auto. }
    destruct K as (ds & tl & E & Hbody & Hm & Hfit). destruct (run_plain (over_up (get_loop fuel) _) t1) as [r t4]. cbn [fst] in E. subst r.
    exists ds, (-2), tl. split; [reflexivity|]. auto 6.
  - fold (head_prog MAX_HEADER) in A1. rewrite A1. unfold isN in A2. subst a. exists [], (-1), body.
    replace ((if 0 <? t_err t then - t_err t else t_err t) =? 0) with false by (destruct (0 <? t_err t); lia).
    split; [reflexivity|]. split; [reflexivity|]. split; [contradiction|]. split; [auto|constructor].
Qed.

(** ** The same over SRT *)
Inductive asks {A} : prog A -> Prop :=
| asks_ret a : asks (PRet a)
| asks_read n k ke : 0 < n -> (forall d, asks (k d)) -> (forall c, exists a, ke c = PRet a) -> asks (PRead n k ke).
Lemma asks_map {A B} (p : prog A) (g : A -> B) : asks p -> asks (pbind p (fun x => PRet (g x))).
Proof. intros H. induction H as [a|n k ke Hn Hk IH Hke]; cbn [pbind]; constructor; [exact Hn|exact IH|]. intros c. destruct (Hke c) as (a & ->). cbn. eauto. Qed.
Lemma get_loop_asks fuel : asks (get_loop fuel).
Proof. induction fuel as [|f IH]; cbn [get_loop]; constructor; [lia| |eauto]. intros d. apply (asks_map _ (fun x => (d :: fst x, snd x))), IH. Qed.
Lemma over_up_okp {A} (p : prog A) : asks p -> forall b, binv b -> okp (fun _ => True) (fun _ _ => True) (over_up p b).
Proof.
  intros H. induction H as [a|n k ke Hn Hk IH Hke]; intros b Hb; cbn [over_up]; [constructor; exact I|].
  eapply okp_bind; [apply up_okp; assumption| |].
  - intros [r b1] Hr. destruct r as [d|c| |]; try (constructor; exact I); [apply IH, (rok_binv _ _ _ Hr)|]. destruct (Hke c) as (a & ->). constructor. exact I.
  - intros c [r b1] Hr. unfold rerr in Hr. cbn in Hr. subst r. destruct (Hke c) as (a & ->). eexists. split; [reflexivity|exact I].
Qed.
Lemma get_prog_ok lib fuel : (forall h, let '(n, ri) := lib h in n <= 0 \/ binv (hb_new (ri_chunked ri) (ri_cl ri))) -> reads_ok (get_prog lib fuel).
Proof.
  intros H. unfold get_prog. apply (okp_reads (fun _ => True) (fun _ _ => True)). eapply okp_bind; [apply head_okp| |].
  - intros r _. destruct r as [h|c| |]; try (constructor; exact I). specialize (H h). destruct (lib h) as [n ri].
    destruct (n <? 0) eqn:E1; [constructor; exact I|]. destruct (n =? 0) eqn:E2; [constructor; exact I|]. destruct H as [H|H]; [lia|].
    eapply okp_bind; [apply over_up_okp; [apply get_loop_asks|exact H]| |]; [intros; constructor; exact I|eauto].
  - intros c r (c' & ->). eauto.
Qed.
Lemma answer_binv ch cl wire body : answer_body ch cl wire body -> binv (hb_new ch cl).
Proof.
  intros [(more & H)|(-> & H & _)]; unfold binv, hb_new; cbn [hb_eof hb_chunked hb_left hb_cl hb_nread].
  - unfold S_Https.framed in H. cbn [fst snd] in H. destruct ch; right; [left; split; [reflexivity|lia]|right]. split; [reflexivity|]. right. lia.
  - right. right. split; [reflexivity|]. left. exact H.
Qed.
Lemma run_srt_bind {A B} (p : prog A) (f : A -> prog B) s : run_srt (pbind p f) s =
  match run_srt p s with (Ok a, s1) => run_srt (f a) s1 | (Err c, s1) => (Err c, s1) | (UB, s1) => (UB, s1) | (Fuel, s1) => (Fuel, s1) end.
Proof. revert s. induction p as [a|n k IH ke IHe]; intros s; cbn [pbind run_srt]; [reflexivity|]. destruct (srt_read s n) as [[d|c| |] s1]; auto. Qed.
(** Only what the library says of the head that is read matters. *)
Lemma get_prog_head lib lib' fuel s r s1 : run_srt (head_prog MAX_HEADER) s = (Ok r, s1) -> (forall h, r = Ok h -> lib h = lib' h) ->
  run_srt (get_prog lib fuel) s = run_srt (get_prog lib' fuel) s.
Proof. intros H Hf. unfold get_prog. rewrite !run_srt_bind, H. destruct r as [h|c| |]; try reflexivity. rewrite (Hf h eq_refl). reflexivity. Qed.
Lemma get_srt lib fuel raw evs ms c miss h wire n ri body : zlen raw = 1316 -> arrives evs ms c -> is_head h -> zlen h <= MAX_HEADER ->
  concat ms ++ miss = h ++ wire -> lib h = (n, ri) -> 0 < n -> answer_body (ri_chunked ri) (ri_cl ri) wire body ->
  zlen body + 1 < Z.of_nat fuel ->
  exists ds r tl, fst (run_srt (get_prog lib fuel) (srt_open raw evs)) = Ok (Ok (ds, r)) /\ body = concat ds ++ tl /\ (miss = [] -> tl = [] /\ r = -2) /\
    (r = -2 \/ r = -1 /\ ds = []) /\ Forall (fun d => zlen d <= 1023) ds.
Proof.
  intros Hr Ha Hh Hx Hst Hl Hn Hb Hf. pose proof (arrives_nz _ _ _ Ha) as Hc. set (lib' := fun x : list Z => if eqb_list x h then (n, ri) else (-1, ri)).
  pose proof (arrives_ne _ _ _ Ha) as Hne.
  assert (Hhead : exists r s1, run_srt (head_prog MAX_HEADER) (srt_open raw evs) = (Ok r, s1) /\ (forall x, r = Ok x -> lib x = lib' x)).
  { pose proof (run_srt_plain (head_prog MAX_HEADER) (okp_reads _ _ _ (head_okp MAX_HEADER)) (srt_open raw evs) ms c (srt_open_ok raw evs Hr) Ha) as E.
    rewrite srt_open_pending, head_prog_run in E. destruct (run_srt (head_prog MAX_HEADER) (srt_open raw evs)) as [x s1]. cbn [fst] in E.
    destruct (read_head (mktr ms c) MAX_HEADER) as [r t1] eqn:E1. cbn [fst] in E. subst x. exists r, s1. split; [reflexivity|]. intros x ->.
    destruct (read_head_cut (mktr ms c) miss h wire _ _ Hne Hh Hx Hst E1) as (-> & _). unfold lib'. rewrite eqb_list_refl. exact Hl. }
  destruct Hhead as (r0 & s1 & H1 & H2). rewrite (get_prog_head lib lib' fuel _ r0 s1 H1 H2).
  rewrite (run_srt_plain _ (get_prog_ok lib' fuel ltac:(intros x; unfold lib'; destruct (eqb_list x h); [right; exact (answer_binv _ _ _ _ Hb)|left; lia])) _ ms c (srt_open_ok raw evs Hr) Ha), srt_open_pending.
  apply (get_plain lib' fuel (mktr ms c) miss h wire n ri body Hne Hh Hx Hst); auto. unfold lib'. rewrite eqb_list_refl. reflexivity.
Qed.
(** What a sender of this project sends arrives. *)
Lemma sent_bytes ws ms : sent ws ms -> concat ms = concat ws /\ Forall (fun m => 1 <= zlen m <= 1316) ms.
Proof.
  assert (P : forall m d, packed m d -> Forall (fun m => 1 <= zlen m <= 1316) m).
  { intros m d H. induction H as [|x Hx|x xs y Hx H IH]; constructor; auto; lia. }
  intros H. induction H as [|w ws evs m ms Hw H (IH1 & IH2)]; [split; constructor|].
  pose proof (st_srt_write_ok _ _ _ _ (Nat.lt_succ_diag_r _) Hw) as K. rewrite concat_app, IH1, (packed_concat _ _ K). split; [reflexivity|]. apply Forall_app. split; [exact (P _ _ K)|exact IH2].
Qed.
Lemma sent_arrives ms : Forall (fun m => 1 <= zlen m <= 1316) ms -> arrives (map SvMsg ms ++ [SvClosed]) ms ERROR_SRT_SOCKET_CLOSED.
Proof. intros H. induction H as [|m ms Hm H IH]; cbn [map app]; constructor; assumption. Qed.
Lemma request_srt_head framing fr' sizes h s s1 : run_srt (head_prog MAX_HEADER) s = (Ok (Ok h), s1) -> framing h = fr' h ->
  run_srt (request_prog framing sizes) s = run_srt (request_prog fr' sizes) s.
Proof. intros H Hf. unfold request_prog. rewrite !run_srt_bind, H, Hf. reflexivity. Qed.
(** Writing pieces to a file: the first of them are there. *)
Lemma f_writes_prefix ds : forall text out dev,
  exists more, out ++ concat ds = f_out (snd (f_writes (mkfs text false false false out) ds dev)) ++ more /\ (Forall (fun b => b = true) dev -> more = []).
Proof.
  induction ds as [|d ds IH]; intros text out dev; cbn [f_writes concat]; [exists []; auto|].
  unfold f_write, f_good. cbn [f_eof f_fail f_bad negb andb f_left f_out].
  assert (G : forall dev', exists more, (out ++ d) ++ concat ds = f_out (snd (let '(rs, f2) := f_writes (mkfs text false false false (out ++ d)) ds dev' in (@Ok unit tt :: rs, f2))) ++ more /\ (Forall (fun b => b = true) dev' -> more = [])).
  { intros dev'. destruct (IH text (out ++ d) dev') as (more & A & B). exists more. destruct (f_writes _ ds dev') as [rs f2]. cbn [snd] in *. auto. }
  destruct dev as [|[|] dev]; cbn [tl].
  - destruct (G []) as (more & A & B). exists more. rewrite <- app_assoc in A. cbn [f_bad]. auto.
  - destruct (G dev) as (more & A & B). exists more. rewrite <- app_assoc in A. cbn [f_bad]. split; [exact A|]. intros F. exact (B (Forall_inv_tail F)).
  - destruct (f_writes_bad ds dev (mkfs text false false true out) eq_refl) as (_ & B). cbn [f_bad]. destruct (f_writes _ ds dev) as [rs f2]. cbn [snd f_out] in *. rewrite B.
    exists (d ++ concat ds). split; [reflexivity|]. intros F. pose proof (Forall_inv F) as K. discriminate K.
Qed.
