(** Lemmas for C244. *)
From Verif Require Import Base M_IO S_IO L_IO M_Text M_Packet M_Flv S_Flv L_Flv M_Conf S_Url M_Url L_Url M_Host M_Http M_Https L_Https M_Upload S_Upload L_Upload M_Stream S_Http L_Http L_Http2 L_Http3 M_Edge L_Edge M_HttpConn S_HttpConn L_HttpConn S_HttpOut L_HttpOut S_EdgeOut L_EdgeOut S_HttpEnd.

Lemma sk_write_f s d : fst (sk_write s d) <> Fuel.
Proof. unfold sk_write. destruct (sk_room s) as [[|n]|]; [discriminate| |]; destruct (zlen d =? 0); discriminate. Qed.
Lemma hr_body_f h s d : fst (hr_body h s d) <> Fuel.
Proof.
  unfold hr_body. destruct (hr_chunked h).
  - pose proof (sk_write_f s (hexs (zlen d) ++ crlf)) as A. destruct (sk_write s (hexs (zlen d) ++ crlf)) as [[u|c| |] s1]; cbn [fst] in *; try discriminate; try contradiction.
    destruct (0 <? zlen d).
    + pose proof (sk_write_f s1 d) as B. destruct (sk_write s1 d) as [[u2|c| |] s2]; cbn [fst] in *; try discriminate; try contradiction. apply sk_write_f.
    + apply sk_write_f.
  - destruct (0 <? zlen d); [|discriminate]. pose proof (sk_write_f s d) as B. destruct (sk_write s d) as [[u2|c| |] s2]; cbn [fst] in *; try discriminate; contradiction.
Qed.
Lemma hr_header_f reason h s : fst (fst (hr_write_header reason h s)) <> Fuel.
Proof. unfold hr_write_header. pose proof (sk_write_f s (response_head reason h)) as A. destruct (sk_write s (response_head reason h)) as [r s1]. exact A. Qed.
Lemma hr_write_f reason h s d : fst (fst (hr_write reason h s d)) <> Fuel.
Proof.
  unfold hr_write. destruct (hr_sent h).
  - pose proof (hr_body_f h s d) as A. destruct (hr_body h s d). exact A.
  - pose proof (hr_header_f reason h s) as A. destruct (hr_write_header reason h s) as [[[u|c| |] h1] s1]; cbn [fst] in *; try discriminate; try contradiction.
    pose proof (hr_body_f h1 s1 d) as B. destruct (hr_body h1 s1 d). exact B.
Qed.
Lemma hr_wr_f reason w d : fst (hr_wr reason w d) <> Fuel.
Proof. unfold hr_wr. pose proof (hr_write_f reason (fst w) (snd w) d) as A. destruct (hr_write reason (fst w) (snd w) d) as [[r h1] s1]. exact A. Qed.
Section Player.
Context {W : Type} (wr : W -> list Z -> res unit * W) (HW : forall w d, fst (wr w d) <> Fuel).
Lemma flv_put_f m p w : fst (fst (flv_put wr m p w)) <> Fuel.
Proof.
  unfold flv_put. destruct (flv_tag_type (p_stream p)); [|discriminate]. destruct (_ || _ || _); [discriminate|].
  destruct (flv_head_any m p z) as ([hd ds] & ->). pose proof (HW w hd) as A. destruct (wr w hd) as [[u|c| |] w1]; cbn [fst] in *; try discriminate; try contradiction.
  pose proof (HW w1 (p_data p)) as B. destruct (wr w1 (p_data p)) as [[u2|c| |] w2]; cbn [fst] in *; try discriminate; contradiction.
Qed.
Lemma enc_loop_flv_f : forall ds m w, fst (fst (enc_loop wr (XFlv m) ds w)) <> Some Fuel.
Proof.
  assert (B : forall ps m w, fst (fst (enc_batch wr (XFlv m) ps w)) <> Fuel /\ exists m1, snd (fst (enc_batch wr (XFlv m) ps w)) = XFlv m1).
  { induction ps as [|p ps IH]; intros m w; cbn [enc_batch]; [split; [discriminate|eexists; reflexivity]|]. cbn [mux_packet]. pose proof (flv_put_f m p w) as A.
    destruct (flv_put wr m p w) as [[[u|c| |] m1] w1]; cbn [fst snd] in *; try (split; [discriminate|eexists; reflexivity]); try contradiction. apply IH. }
  induction ds as [|d ds IH]; intros m w; cbn [enc_loop]; [discriminate|]. destruct d as [|p d]; [discriminate|].
  destruct (B (p :: d) m w) as [A (m1 & Em)]. destruct (enc_batch wr (XFlv m) (p :: d) w) as [[[u|c| |] x1] w1]; cbn [fst snd] in *; try discriminate; try contradiction. subst x1. apply IH.
Qed.
Lemma enc_loop_null_f : forall ds w, fst (fst (enc_loop wr XRtmpNull ds w)) <> Some Fuel.
Proof.
  assert (B : forall ps w, enc_batch wr XRtmpNull ps w = ((if existsb (fun p => is_script p || is_audio p || is_video p) ps then UB else Ok tt), XRtmpNull, w)).
  { induction ps as [|p ps IH]; intros w; cbn [enc_batch]; [reflexivity|]. cbn [mux_packet existsb]. destruct (is_script p || is_audio p || is_video p); [reflexivity|]. cbn [orb]. apply IH. }
  induction ds as [|d ds IH]; intros w; cbn [enc_loop]; [discriminate|]. destruct d as [|p d]; [discriminate|]. rewrite B. destruct (existsb _ (p :: d)); [discriminate|apply IH].
Qed.
End Player.

(** ** Reading consumes *)
Definition left (t : transport) : Z := zlen (t_stream t).
Lemma t_read_left t n : nonempty_chunks (t_chunks t) -> let '(x, t1) := t_read t n in nonempty_chunks (t_chunks t1) /\ left t1 <= left t /\ forall d, x = Ok d -> left t1 < left t.
Proof.
  intros Hn. destruct (t_read t n) as [x t1] eqn:E. destruct (t_read_ne _ _ _ _ Hn E) as [N [(d & -> & Hd & Hs)|(c & ->)]].
  - split; [exact N|]. unfold left. rewrite Hs, zlen_app. split; [lia|]. intros d0 [= <-]. lia.
  - split; [exact N|]. split; [|discriminate]. unfold t_read in E. destruct (n <=? 0); [injection E as _ <-; lia|]. destruct (t_chunks t) as [|k cs]; [injection E as _ <-; lia|]. destruct (zlen k <=? n); discriminate.
Qed.
Lemma ew_refl s : ends_with s s.
Proof. exists []. reflexivity. Qed.
Lemma ew_trans a b c : ends_with a b -> ends_with b c -> ends_with a c.
Proof. intros (x & ->) (y & ->). exists (x ++ y). apply app_assoc. Qed.
Lemma ew_left t t1 : ends_with (t_stream t) (t_stream t1) -> left t1 <= left t.
Proof. intros (x & E). unfold left. rewrite E, zlen_app. pose proof (zlen_nonneg x). lia. Qed.
Lemma t_read_slice t n d t1 : t_read t n = (Ok d, t1) -> zlen d <= n /\ t_stream t = d ++ t_stream t1.
Proof.
  unfold t_read. destruct (n <=? 0) eqn:E0; [discriminate|]. unfold t_stream. destruct (t_chunks t) as [|c cs]; [discriminate|]. destruct (zlen c <=? n) eqn:E; intros [= <- <-]; cbn [t_chunks concat].
  - split; [lia|reflexivity].
  - split; [rewrite zlen_take by lia; lia|]. rewrite app_assoc, take_drop. reflexivity.
Qed.
Lemma run_ew {A} (p : prog A) : forall t, ends_with (t_stream t) (t_stream (snd (run_plain p t))).
Proof.
  induction p as [a|n k IHk ke IHe]; intros t; cbn [run_plain]; [apply ew_refl|].
  assert (TE : ends_with (t_stream t) (t_stream (snd (t_read t n)))).
  { destruct (t_read t n) as [[d|c| |] t1] eqn:E; [exists d; apply (t_read_slice _ _ _ _ E)| | |];
      (unfold t_read in E; destruct (n <=? 0); [injection E as; subst; apply ew_refl|]; destruct (t_chunks t) as [|k0 cs]; [injection E as; subst; apply ew_refl|]; destruct (zlen k0 <=? n); discriminate). }
  destruct (t_read t n) as [[d|c| |] t1]; cbn [snd] in TE; try exact TE; eapply ew_trans; try exact TE; auto.
Qed.
Lemma run_left {A} (p : prog A) : forall t, nonempty_chunks (t_chunks t) -> nonempty_chunks (t_chunks (snd (run_plain p t))) /\ left (snd (run_plain p t)) <= left t.
Proof.
  induction p as [a|n k IHk ke IHe]; intros t Hn; cbn [run_plain]; [split; [exact Hn|cbn; lia]|]. pose proof (t_read_left t n Hn) as TL.
  destruct (t_read t n) as [[d|c| |] t1]; destruct TL as (N & L & _); try (split; [exact N|exact L]).
  - destruct (IHk d t1 N). split; [assumption|lia].
  - destruct (IHe c t1 N). split; [assumption|lia].
Qed.
Lemma size_line_left t l t1 : nonempty_chunks (t_chunks t) -> size_line 34 t [] = (Ok l, t1) -> nonempty_chunks (t_chunks t1) /\ left t1 < left t.
Proof.
  intros Hn H. cbn [size_line] in H. pose proof (t_read_left t 1 Hn) as A. destruct (t_read t 1) as [[d|c| |] t2]; try discriminate H. destruct A as (N & _ & L). specialize (L d eq_refl).
  match type of H with (if ?b then _ else _) = _ => destruct b end; [injection H as _ <-; auto|].
  change (size_line 33 t2 ([] ++ d) = (Ok l, t1)) in H. pose proof (sl_prog_run 33 ([] ++ d) t2) as R. rewrite H in R. destruct (run_left (sl_prog 33 ([] ++ d)) t2 N) as (A & B). rewrite R in A, B. cbn [snd] in *. split; [exact A|lia].
Qed.
Lemma read_fully_left t n d t1 : nonempty_chunks (t_chunks t) -> read_fully t n = (Ok d, t1) -> nonempty_chunks (t_chunks t1) /\ left t1 < left t.
Proof.
  intros Hn H. unfold read_fully in H. cbn [read_fully_loop] in H. pose proof (t_read_left t (n - zlen (@nil Z)) Hn) as A. destruct (t_read t (n - zlen (@nil Z))) as [[d0|c| |] t2]; try discriminate H. destruct A as (N & _ & L). specialize (L d0 eq_refl).
  match type of H with (if ?b then _ else _) = _ => destruct b end; [|injection H as _ <-; auto].
  pose proof (rf_prog_run (Z.to_nat n) n ([] ++ d0) t2) as R. rewrite H in R. destruct (run_left (rf_prog (Z.to_nat n) n ([] ++ d0)) t2 N) as (A & B). rewrite R in A, B. cbn [snd] in *. split; [exact A|lia].
Qed.
Lemma up_read_left b t n d b1 t1 : nonempty_chunks (t_chunks t) -> up_read b t n = (Ok d, b1, t1) -> 0 <= hb_left b < 2 ^ 64 -> 0 < n -> left t1 < left t.
Proof.
  intros Hn H Hl Hp. unfold up_read, hb_read in H. destruct (hb_eof b); [discriminate|]. destruct (hb_chunked b).
  - unfold read_chunked in H. destruct (hb_left b =? 0) eqn:E0.
    + unfold read_chunk_len in H. destruct (size_line 34 t []) as [[l|c| |] t2] eqn:E; try discriminate H. destruct (size_line_left _ _ _ Hn E) as (N & L).
      destruct (size_of_line l); try discriminate H.
      match type of H with up_data ?b2 t2 n = _ => pose proof (upd_prog_run b2 n t2) as R; rewrite H in R; destruct (run_left (upd_prog b2 n) t2 N) as (A & B); rewrite R in A, B end. cbn [snd] in *. lia.
    + unfold up_data in H. assert (Z.min (hb_left b) n =? 0 = false) as Em by lia. rewrite Em in H. destruct (read_fully t (Z.min (hb_left b) n)) as [[d0|c| |] t2] eqn:E; try discriminate H.
      destruct (read_fully_left _ _ _ _ Hn E) as (N & L).
      match type of H with chunk_tail ?b2 t2 d0 = _ => pose proof (ct_prog_run b2 d0 t2) as R; rewrite H in R; destruct (run_left (ct_prog b2 d0) t2 N) as (A & B); rewrite R in A, B end. cbn [snd] in *. lia.
  - match type of H with context [t_read t ?m] => pose proof (t_read_left t m Hn) as A; destruct (t_read t m) as [[d0|c| |] t2] end; try discriminate H. injection H as -> _ ->. destruct A as (_ & _ & A). exact (A d eq_refl).
Qed.
Lemma relay_f reason f : forall b up h s, nonempty_chunks (t_chunks up) -> 0 <= hb_left b < 2 ^ 64 -> left up < Z.of_nat f -> fst (fst (relay f reason b up h s)) <> Fuel.
Proof.
  induction f as [|f IH]; intros b up h s Hn Hl Hf; [unfold left in Hf; pose proof (zlen_nonneg (t_stream up)); lia|]. cbn [relay].
  destruct (up_total b up 1024 Hn Hl) as (x & b1 & up1 & E & N1 & L1 & Hx). rewrite E. destruct Hx as [(d & ->)|(c & ->)]; [|discriminate].
  pose proof (up_read_left _ _ _ _ _ _ Hn E Hl ltac:(lia)) as Lt.
  pose proof (hr_write_f reason h s d) as B. destruct (hr_write reason h s d) as [[[u|c| |] h1] s1]; cbn [fst] in *; try discriminate; try contradiction. apply IH; [exact N1|exact L1|lia].
Qed.
Lemma proxy_f reason lib pq up ups o : nonempty_chunks (t_chunks up) -> fst (fst (fst (proxy reason lib pq up ups o))) <> Fuel.
Proof.
  intros Hn. unfold proxy. match goal with |- context [sk_write ups ?x] => pose proof (sk_write_f ups x) as A; destruct (sk_write ups x) as [[u|c| |] s1] end; cbn [fst] in *; try discriminate; try contradiction.
  destruct (read_head_any up MAX_HEADER Hn ltac:(unfold MAX_HEADER; lia)) as (x & t1 & E & Hx). destruct (read_head_keep _ _ _ Hn E) as (N1 & _). rewrite E.
  destruct Hx as [(d & -> & _)|[(-> & _)|(-> & _)]]; [|discriminate|discriminate].
  destruct (lib d) as [n ri]. destruct (n <? 0); [discriminate|]. destruct (n =? 0); [discriminate|].
  match goal with |- context [hr_write_header ?a ?b ?c] => pose proof (hr_header_f a b c) as B; destruct (hr_write_header a b c) as [[[u2|c2| |] h1] c1] end; cbn [fst] in *; try discriminate; try contradiction.
  match goal with |- context [relay ?f ?a ?b ?c ?d2 ?e2] => pose proof (relay_f a f b c d2 e2 N1) as C; destruct (relay f a b c d2 e2) as [[[u3|c3| |] up2] o2] end; cbn [fst] in *; try discriminate.
  - destruct (c3 =? ERROR_HTTP_RES_EOF); discriminate.
  - exfalso. apply C; [cbn; lia| |reflexivity]. unfold left, t_stream, zlen. lia.
Qed.
Lemma finish_f reason X :
  fst (let '(ret, w) := X in let '(ret, w) := match ret with
    | Some (Ok c) => if c =? ERROR_STREAM_PUBLISH_NOT_SUPPORT then answer reason 403 w else if c =? ERROR_STREAM_SOURCE_NOT_EXITS then answer reason 404 w else (ret, w)
    | _ => (ret, w) end in (ret, snd w)) = Some Fuel -> fst X = Some Fuel.
Proof.
  destruct X as [ret w]. cbn [fst].
  assert (A : forall st w, fst (answer reason st w) <> Some Fuel).
  { intros st w0. unfold answer. pose proof (hr_header_f reason (hr_init (fst w0) st None (-1) false) (snd w0)) as B.
    destruct (hr_write_header reason (hr_init (fst w0) st None (-1) false) (snd w0)) as [[[u|c| |] h1] s1]; cbn [fst] in *; congruence. }
  destruct ret as [[c|c| |]|]; try discriminate; try reflexivity.
  pose proof (A 403 w) as A1. pose proof (A 404 w) as A2. destruct (answer reason 403 w) as [r1 w1]. destruct (answer reason 404 w) as [r2 w2]. cbn [fst] in *.
  destruct (c =? ERROR_STREAM_PUBLISH_NOT_SUPPORT); [intros X; cbn in X; congruence|].
  destruct (c =? ERROR_STREAM_SOURCE_NOT_EXITS); [intros X; cbn in X; congruence|]. discriminate.
Qed.
Lemma http_stream_f reason ins outs h r w sk : w_decode w <> Some Fuel -> fst (http_stream reason ins outs h r w sk) <> Some Fuel.
Proof.
  intros Hd H. unfold http_stream in H. apply finish_f in H. revert H. unfold stream_request. destruct (eqb_list (rq_method r) (str "POST")).
  - unfold publish_start. destruct (_ || _); [discriminate|]. destruct (fmt_find_spec (rq_ext r) ins) as (_ & _ & F3 & F4). destruct (fmt_find ins (rq_ext r)) as [[f|]|c| |]; cbn [bind]; try contradiction; try discriminate.
    destruct (w_taken w (cache_key r)); [discriminate|]. exact Hd.
  - unfold play_start. destruct (if negb (w_taken w (cache_key r)) && is_edge h then w_edge w else (0, w_taken w (cache_key r))) as [ret present]. destruct (_ || _); [discriminate|].
    destruct (fmt_find_spec (rq_ext r) outs) as (_ & _ & F3 & F4). destruct (fmt_find outs (rq_ext r)) as [[f|]|c| |]; cbn [bind]; try contradiction; try discriminate.
    unfold encode, mux_of. destruct (eqb_list f (str "flv")); cbn [mux_header].
    + pose proof (hr_wr_f reason (rsp200, sk) flv_default_header) as A. destruct (hr_wr reason (rsp200, sk) flv_default_header) as [[u|c| |] w1]; cbn [fst] in *; try discriminate; try contradiction.
      pose proof (enc_loop_flv_f (hr_wr reason) (hr_wr_f reason) (w_dumps w) flvmux0 w1) as B. destruct (enc_loop _ _ _ _) as [[r2 x2] w2]. exact B.
    + pose proof (enc_loop_null_f (hr_wr reason) (w_dumps w) (rsp200, sk)) as B. destruct (enc_loop _ _ _ _) as [[r2 x2] w2]. exact B.
Qed.
(** ** One request *)
Lemma route_f g e s N : readers_end g N -> nonempty_chunks (t_chunks (cs_in s)) -> ends_with N (t_stream (cs_in s)) -> nonempty_chunks (t_chunks (he_upin e)) ->
  fst (http_route g e s) <> Some Fuel /\ nonempty_chunks (t_chunks (cs_in (snd (http_route g e s)))) /\ ends_with (t_stream (cs_in s)) (t_stream (cs_in (snd (http_route g e s)))).
Proof.
  intros Hr Hn HN Hu. unfold http_route. assert (R : nonempty_chunks (t_chunks (cs_in s)) /\ ends_with (t_stream (cs_in s)) (t_stream (cs_in s))) by (split; [exact Hn|apply ew_refl]).
  destruct (cs_ctx s) as [r|]; [|split; [discriminate|exact R]].
  assert (FP : forall h, fst (serve_proxy g e h r s) <> Some Fuel /\ nonempty_chunks (t_chunks (cs_in (snd (serve_proxy g e h r s)))) /\ ends_with (t_stream (cs_in s)) (t_stream (cs_in (snd (serve_proxy g e h r s))))).
  { intros h. unfold serve_proxy. destruct (up_kind (rq_schema r)) as [[]|]; try (split; [discriminate|exact R]). destruct (proxy_info h 80) as [ip port]. destruct (negb (he_conn e)); [split; [discriminate|exact R]|].
    pose proof (proxy_f (hg_reason g) (hg_rsp g) (mkpq (rq_method r) (rq_url r) (rq_host r) (rq_headers r)) (he_upin e) (he_upout e) (cs_out s) Hu) as P.
    destruct (proxy _ _ _ _ _ _) as [[[ret u1] ups] o]. cbn [fst snd] in *. split; [destruct ret; congruence|exact R]. }
  destruct (find_host (hg_router g) (rq_host r)) as [h|]; [|unfold serve_404; destruct (hr_write_header _ _ _) as [[a b] c]; split; [discriminate|exact R]].
  destruct (adapter h); try apply FP; try (split; [discriminate|exact R]). unfold serve_stream.
  assert (G : forall d t pub, d <> Some Fuel -> nonempty_chunks (t_chunks t) -> ends_with (t_stream (cs_in s)) (t_stream t) ->
    let x := (let '(ret, o) := http_stream (hg_reason g) (hg_ins g) (hg_outs g) h r (mkw (he_taken e) (he_edge e) (he_dumps e) d) (cs_out s) in (ret, mkcs t (cs_ctx s) o (cs_up s) pub)) in
    fst x <> Some Fuel /\ nonempty_chunks (t_chunks (cs_in (snd x))) /\ ends_with (t_stream (cs_in s)) (t_stream (cs_in (snd x)))).
  { intros d t pub Hd Ht Hl. pose proof (http_stream_f (hg_reason g) (hg_ins g) (hg_outs g) h r (mkw (he_taken e) (he_edge e) (he_dumps e) d) (cs_out s) Hd) as A.
    destruct (http_stream _ _ _ _ _ _ _) as [ret o]. cbv zeta. cbn [fst snd cs_in] in *. auto. }
  cbv zeta in G |- *.
  destruct (eqb_list (rq_method r) (str "POST")); [|apply G; [discriminate|exact Hn|apply ew_refl]].
  destruct (publish_start (hg_ins g) h r (he_taken e)) as [f|c| |]; try (apply G; [discriminate|exact Hn|apply ew_refl]).
  destruct (over_body_total (hg_decode g f) (hb_new (rq_is_chunked r) (rq_content_length r)) (cs_in s) Hn ltac:(cbn; lia)) as ([ps x] & t1 & Er & Nn).
  pose proof (run_ew (over_body (hg_decode g f) (hb_new (rq_is_chunked r) (rq_content_length r))) (cs_in s)) as L. rewrite Er in *. cbn [snd] in L. apply G; [|exact Nn|exact L].
  intros X. assert (x = Fuel) as -> by (destruct x; congruence). apply (Hr f (rq_is_chunked r) (rq_content_length r) (cs_in s) ps Hn HN). rewrite Er. reflexivity.
Qed.
Lemma turn_f g e s N : http_schema (hg_url g) -> readers_end g N -> nonempty_chunks (t_chunks (cs_in s)) -> t_err (cs_in s) <> 0 -> ends_with N (t_stream (cs_in s)) -> nonempty_chunks (t_chunks (he_upin e)) ->
  fst (http_turn g e s) <> Some Fuel /\ (fst (http_turn g e s) = Some (Ok 0) -> ends_with N (t_stream (cs_in (snd (http_turn g e s)))) /\ left (cs_in (snd (http_turn g e s))) + 4 <= left (cs_in s)).
Proof.
  intros Hl Hr Hn He HN Hu. unfold http_turn. cbn [wchain]. unfold http_parse.
  destruct (read_head_any (cs_in s) MAX_HEADER Hn ltac:(unfold MAX_HEADER; lia)) as (x & t1 & E & Hx). destruct (read_head_keep _ _ _ Hn E) as (N1 & _). rewrite E.
  destruct Hx as [(d & -> & Hd & Hs & _)|[(-> & _)|(-> & _)]].
  2:{ cbn. split; discriminate. }
  2:{ assert (head_err (t_err (cs_in s)) <> 0 /\ head_err (t_err (cs_in s)) <> 1) as (A & B) by (unfold head_err; destruct (0 <? t_err (cs_in s)) eqn:E0; lia).
      unfold PHASE_NO_CONTINUE, PHASE_CONTINUE. destruct (head_err (t_err (cs_in s)) =? 1) eqn:E1; [lia|]. destruct (head_err (t_err (cs_in s)) =? 0) eqn:E2; [lia|]. cbn [fst snd]. split; [discriminate|]. intros X. injection X as X. contradiction. }
  assert (L1 : left t1 + 4 <= left (cs_in s)) by (unfold left; rewrite Hs, zlen_app; lia).
  assert (W1 : ends_with N (t_stream t1)) by (eapply ew_trans; [exact HN|]; exists d; exact Hs).
  destruct (hg_req g d) as [n [[target method] fields]]. pose proof (request_of_any (hg_url g) target method fields Hl) as Rq.
  destruct (request_of (hg_url g) target method fields) as [pr r]. destruct Rq as ((c & ->) & _).
  assert (R2 : forall s1, cs_in s1 = t1 -> let X := match http_route g e s1 with
       | (Some (Ok r1), s2) => if r1 =? PHASE_NO_CONTINUE then (Some (Ok 0), s2) else if r1 =? PHASE_CONTINUE then (Some (Ok r1), s2) else (Some (Ok r1), s2) | (e0, s2) => (e0, s2) end in
     fst X <> Some Fuel /\ (fst X = Some (Ok 0) -> ends_with N (t_stream (cs_in (snd X))) /\ left (cs_in (snd X)) + 4 <= left (cs_in s))).
  { intros s1 <-. destruct (route_f g e s1 N Hr N1 W1 Hu) as (A & _ & B). pose proof (ew_left _ _ B) as B2. pose proof (ew_trans _ _ _ W1 B) as B3. destruct (http_route g e s1) as [[[c1|c1| |]|] s2]; cbn [fst snd] in *; try (split; [discriminate|intros; split; [exact B3|lia]]).
    - destruct (c1 =? PHASE_NO_CONTINUE); [|destruct (c1 =? PHASE_CONTINUE)]; cbv zeta; cbn [fst snd]; (split; [discriminate|intros; split; [exact B3|lia]]).
    - exfalso. apply A. reflexivity. }
  cbv zeta in R2.
  destruct (n <=? 0) eqn:En.
  - assert (n =? PHASE_NO_CONTINUE = false) as -> by (unfold PHASE_NO_CONTINUE; lia). destruct (n =? PHASE_CONTINUE) eqn:E0; [apply R2; reflexivity|].
    cbn [fst snd cs_in]. split; [discriminate|]. intros; split; [exact W1|lia].
  - change (PHASE_CONTINUE =? PHASE_NO_CONTINUE) with false. change (PHASE_CONTINUE =? PHASE_CONTINUE) with true. cbn iota. apply R2. reflexivity.
Qed.
Lemma conn_f g N : http_schema (hg_url g) -> readers_end g N -> forall fuel envs s, (forall k, nonempty_chunks (t_chunks (he_upin (envs k)))) -> fit s -> ends_with N (t_stream (cs_in s)) ->
  (left (cs_in s) < 4 * Z.of_nat fuel -> fst (http_conn fuel g envs s) <> Some Fuel) /\
  forall k s', after g envs k s s' -> left (cs_in s') + 4 * Z.of_nat k <= left (cs_in s).
Proof.
  intros Hl Hr. induction fuel as [|f IH]; intros envs s Hu Hf HN.
  - split; [unfold left; pose proof (zlen_nonneg (t_stream (cs_in s))); lia|]. intros k. revert envs s Hu Hf HN. induction k as [|k IHk]; intros envs s Hu Hf HN s'; cbn [after]; [intros ->; lia|].
    intros (s1 & T & A). pose proof Hf as ((H1 & H2) & _). destruct (turn_f g (envs O) s N Hl Hr H1 H2 HN (Hu O)) as (_ & B). destruct (turn_ub g (envs O) s Hl (Hu O) Hf) as (_ & F1).
    rewrite T in B, F1. cbn [fst snd] in *. destruct (B eq_refl) as (W & B1). specialize (IHk (fun i => envs (S i)) s1 (fun i => Hu (S i)) F1 W s' A). lia.
  - split; [|apply IH; assumption]. intros Hlt. cbn [http_conn]. pose proof Hf as ((H1 & H2) & _). destruct (turn_f g (envs O) s N Hl Hr H1 H2 HN (Hu O)) as (A & B). destruct (turn_ub g (envs O) s Hl (Hu O) Hf) as (_ & F1).
    destruct (http_turn g (envs O) s) as [[[r|c| |]|] s1]; cbn [fst snd] in *; try discriminate; [|contradiction]. destruct (r =? 0) eqn:E; [|discriminate]. assert (r = 0) by lia. subst r. destruct (B eq_refl) as (W & B1).
    apply (IH (fun k => envs (S k)) s1 (fun k => Hu (S k)) F1); [exact W|lia].
Qed.

(** ** The FLV reader ends *)
Lemma bytes_mid a b c : bytes (a ++ b ++ c) -> bytes b /\ bytes c.
Proof. unfold bytes. rewrite !Forall_app. tauto. Qed.
Lemma chunk_tail_slice b t d d1 b1 t1 : chunk_tail b t d = (Ok d1, b1, t1) -> d1 = d /\ ends_with (t_stream t) (t_stream t1) /\ (hb_size b = 0 -> hb_eof b1 = true).
Proof.
  intros H. pose proof (run_ew (ct_prog b d) t) as W. rewrite ct_prog_run, H in W. cbn [snd] in W. unfold chunk_tail in H.
  assert (F : hb_size b = 0 -> hb_eof (if hb_size b =? 0 then hb_set_eof b else b) = true) by (intros ->; reflexivity).
  destruct (hb_left b =? 0).
  - destruct (read_fully t 2) as [[tl|c| |] t2]; try discriminate H. destruct (eqb_list tl crlf); [|discriminate H]. injection H as <- <- <-. auto.
  - injection H as <- <- <-. auto.
Qed.
Lemma rq_slice b t n d b1 t1 : nonempty_chunks (t_chunks t) -> rq_read b t n = (Ok d, b1, t1) ->
  (exists x y, t_stream t = x ++ d ++ y ++ t_stream t1) /\ zlen d <= n /\ 0 < zlen d \/ d = [] /\ hb_eof b1 = true.
Proof.
  intros Hn H. unfold rq_read, hb_read in H. destruct (hb_eof b); [discriminate|].
  assert (D : forall b t, nonempty_chunks (t_chunks t) -> rq_data b t n = (Ok d, b1, t1) -> (exists x y, t_stream t = x ++ d ++ y ++ t_stream t1) /\ zlen d <= n /\ 0 < zlen d \/ d = [] /\ hb_eof b1 = true).
  { clear. intros b t Hn H. unfold rq_data in H. destruct (hb_size b =? 0) eqn:E0.
    - destruct (chunk_tail_slice _ _ _ _ _ _ H) as (-> & _ & E). right. split; [reflexivity|apply E; lia].
    - destruct (t_read t (Z.min (hb_left b) n)) as [[d0|c| |] t2] eqn:E; try discriminate H. destruct (chunk_tail_slice _ _ _ _ _ _ H) as (-> & (y & Ey) & _).
      destruct (t_read_slice _ _ _ _ E) as (L & S). destruct (t_read_ne _ _ _ _ Hn E) as [_ [(d1 & [= <-] & Hd & _)|(c & ?)]]; [|discriminate].
      left. split; [exists [], y; rewrite S, Ey; reflexivity|lia]. }
  destruct (hb_chunked b).
  - unfold read_chunked in H. destruct (hb_left b =? 0); [|apply (D b t Hn H)]. unfold read_chunk_len in H. destruct (size_line 34 t []) as [[l|c| |] t2] eqn:E; try discriminate H.
    destruct (size_line_left _ _ _ Hn E) as (N & _). pose proof (run_ew (sl_prog 34 []) t) as (x0 & W). rewrite sl_prog_run, E in W. cbn [snd] in W.
    destruct (size_of_line l); try discriminate H. destruct (D _ _ N H) as [((x & y & E1) & K)|K]; [left|right; exact K]. split; [|exact K]. exists (x0 ++ x), y. rewrite W, E1, <- app_assoc. reflexivity.
  - match type of H with context [t_read t ?m] => assert (m <= n) as Hm by (destruct (0 <=? hb_cl b); lia); destruct (t_read t m) as [[d0|c| |] t2] eqn:E end; try discriminate H. injection H as -> _ ->.
    destruct (t_read_slice _ _ _ _ E) as (L & S). destruct (t_read_ne _ _ _ _ Hn E) as [_ [(d1 & [= <-] & Hd & _)|(c & ?)]]; [|discriminate]. left. split; [exists [], []; exact S|lia].
Qed.
Lemma over_body_trace {A} (p : prog A) : reads_body p -> forall b t a, nonempty_chunks (t_chunks t) -> 0 <= hb_left b < 2 ^ 64 -> fst (run_plain (over_body p b) t) = Ok (Ok a) ->
  exists cs err, nonempty_chunks cs /\ fst (run_plain p (mktr cs err)) = Ok a /\ zlen (concat cs) <= left t /\ (bytes (t_stream t) -> bytes (concat cs)).
Proof.
  assert (T0 : forall c n, 0 < n -> t_read (mktr [] c) n = (Err c, mktr [] c)).
  { intros c n Hn. unfold t_read. replace (n <=? 0) with false by (symmetry; apply Z.leb_gt; lia). reflexivity. }
  assert (L0 : forall t, 0 <= left t) by (intros t; apply zlen_nonneg).
  intros H. induction H as [a0|n k ke Hn Hk IH Hke (n' & k' & ke' & E & Hn' & Hke')]; intros b t a Hne Hl; cbn [over_body].
  - intros [= ->]. exists [], 0. split; [constructor|]. split; [reflexivity|]. split; [apply L0|constructor].
  - assert (Z0 : forall c, ke c = PRet a -> exists cs err, nonempty_chunks cs /\ fst (run_plain (PRead n k ke) (mktr cs err)) = Ok a /\ zlen (concat cs) <= left t /\ (bytes (t_stream t) -> bytes (concat cs))).
    { intros c Hc. exists [], c. split; [constructor|]. cbn [run_plain]. rewrite T0 by exact Hn. rewrite Hc. split; [reflexivity|]. split; [apply L0|constructor]. }
    rewrite run_plain_bind, rq_prog_run. destruct (rq_total b t n Hne Hl) as (x & b1 & t1 & Er & N1 & L1 & Hx). rewrite Er. destruct Hx as [(d & ->)|(c & ->)].
    + destruct (rq_slice _ _ _ _ _ _ Hne Er) as [((x & y & Es) & Hd & Hp)|(-> & He)].
      * intros R. destruct (IH d ltac:(lia) b1 t1 a N1 L1 R) as (cs & err & C1 & C2 & C3 & C4). exists (d :: cs), err.
        split; [constructor; [intros ->; change (zlen (@nil Z)) with 0 in Hp; lia|exact C1]|]. split; [|split].
        { cbn [run_plain]. unfold t_read. cbn [t_chunks t_err]. replace (n <=? 0) with false by (symmetry; apply Z.leb_gt; lia). replace (zlen d <=? n) with true by (symmetry; apply Z.leb_le; lia). exact C2. }
        { cbn [concat]. unfold left in *. rewrite Es, !zlen_app. pose proof (zlen_nonneg x). pose proof (zlen_nonneg y). lia. }
        { intros B. rewrite Es in B. apply bytes_mid in B as (B1 & B2). cbn [concat]. unfold bytes in *. apply Forall_app. split; [exact B1|]. apply C4. apply Forall_app in B2 as (_ & B2). exact B2. }
      * rewrite E. cbn [over_body]. rewrite (rq_eof _ _ He). cbn [pbind]. rewrite Hke'. destruct (Hke ERROR_HTTP_RES_EOF) as (a1 & Ha). rewrite Ha. cbn. intros [= ->]. exact (Z0 _ Ha).
    + destruct (Hke c) as (a1 & Ha). rewrite Ha. cbn. intros [= ->]. exact (Z0 _ Ha).
Qed.
Lemma flv_demux_ends fuel fill t : 15 <= zlen fill -> zlen fill < 2 ^ 62 -> nonempty_chunks (t_chunks t) -> bytes (t_stream t) -> zlen (t_stream t) < Z.of_nat fuel ->
  snd (fst (snd (flv_demux fuel (br_new fill t)))) <> Fuel.
Proof.
  intros H1 H2 Hn Hb Hf. set (h := take 9 (t_stream t)). set (s := drop 9 (t_stream t)).
  assert (Es : t_stream t = h ++ s) by (symmetry; apply take_drop).
  destruct (Z_lt_ge_dec (zlen (t_stream t)) 9) as [Hs|Hs].
  - pose proof (br_new_at fill t H2 Hn) as A. destruct (at_acquire _ _ _ _ _ 9 A ltac:(lia)) as (_ & B & _). destruct (B ltac:(lia) ltac:(lia)) as (r1 & E). unfold flv_demux, flv_read_header, mbind. rewrite E. discriminate.
  - assert (Hh : zlen h = 9) by (unfold h; rewrite zlen_take by lia; lia).
    destruct (eqb_list (take 3 h) [0x46; 0x4C; 0x56]) eqn:Em.
    + apply eqb_list_spec in Em. assert (Bs : bytes s) by (rewrite Es in Hb; apply Forall_app in Hb as (_ & Hb); exact Hb).
      destruct (flv_demux_stream fill t h s fuel H1 H2 Hn Es Hh Em Bs) as (hp & x & r1 & -> & _ & Hx). cbn [snd fst].
      pose proof (spec_flv_all_fuel (zlen fill) (t_err t) fuel s) as F. rewrite Es, zlen_app in Hf. specialize (F ltac:(lia)).
      destruct (snd (spec_flv_all fuel (zlen fill) (t_err t) s)); cbn in Hx; [subst; discriminate|destruct Hx as [->|[->|[->| ->]]]; discriminate|contradiction].
    + pose proof (br_new_at fill t H2 Hn) as A. destruct (at_acquire _ _ _ _ _ 9 A ltac:(lia)) as (_ & _ & B). destruct (B ltac:(lia) ltac:(lia)) as (r1 & E & A1).
      unfold flv_demux, flv_read_header, mbind. rewrite E. destruct (at_rdbytes _ _ _ _ _ 9 A1 ltac:(lia)) as [E1 _]. rewrite E1. fold h.
      clearbody h. do 9 (destruct h as [|? h]; [cbn in Hh; lia|]). change (take 3 (z :: z0 :: z1 :: z2 :: z3 :: z4 :: z5 :: z6 :: z7 :: h)) with [z; z0; z1] in Em.
      destruct ((z =? 0x46) && (z0 =? 0x4C) && (z1 =? 0x56)) eqn:Ez; [|discriminate]. exfalso. apply andb_prop in Ez as (Ez & Ez3). apply andb_prop in Ez as (Ez1 & Ez2).
      apply Z.eqb_eq in Ez1, Ez2, Ez3. subst. discriminate Em.
Qed.
Lemma flv_readers_end g s fill fuel : (forall f, hg_decode g f = flv_decode_prog fuel fill) -> 15 <= zlen fill < 2 ^ 62 -> bytes s -> zlen s < Z.of_nat fuel -> readers_end g s.
Proof.
  intros Hg Hc Hb Hs f ch len t ps Hn (x & Hx) H. rewrite Hg in H. rewrite Hx in *. rewrite zlen_app in Hs. apply Forall_app in Hb as (_ & Hb). pose proof (zlen_nonneg x).
  destruct (over_body_trace _ (flv_decode_okb fuel fill ltac:(lia)) (hb_new ch len) t _ Hn ltac:(cbn; lia) H) as (cs & err & N & R & L & B).
  rewrite flv_decode_same in R. injection R as R. apply (flv_demux_ends fuel fill (mktr cs err)); auto; try lia.
  - unfold t_stream. cbn [t_chunks]. unfold left in L. lia.
  - rewrite R. reflexivity.
Qed.

(** ** Codes, never errors *)
Lemma enc_loop_code {W} (wr : W -> list Z -> res unit * W) ds : forall x w c, fst (fst (enc_loop wr x ds w)) <> Some (Err c).
Proof.
  induction ds as [|d ds IH]; intros x w c; cbn [enc_loop]; [discriminate|]. destruct d as [|p d]; [discriminate|].
  destruct (enc_batch wr x (p :: d) w) as [[[u|e| |] x1] w1]; try discriminate. apply IH.
Qed.
Lemma http_stream_code reason ins outs h r w sk c : (forall c, w_decode w <> Some (Err c)) -> fst (http_stream reason ins outs h r w sk) <> Some (Err c).
Proof.
  intros Hd. unfold http_stream.
  assert (A : forall st w c, fst (answer reason st w) <> Some (Err c)).
  { intros st w0 c0. unfold answer. destruct (hr_write_header _ _ _) as [[[u|e| |] h1] s1]; discriminate. }
  assert (B : forall c, fst (stream_request reason ins outs h r w (rsp200, sk)) <> Some (Err c)).
  { clear c. intros c. unfold stream_request. destruct (eqb_list _ _).
    - destruct (publish_start _ _ _ _); try discriminate. apply Hd.
    - destruct (play_start _ _ _ _ _); try discriminate. unfold encode. destruct (mux_header _ _ _) as [[u|e| |] w1]; try discriminate.
      pose proof (enc_loop_code (hr_wr reason) (w_dumps w) (mux_of a) w1 c) as E. destruct (enc_loop _ _ _ _) as [[r2 x2] w2]. exact E. }
  destruct (stream_request _ _ _ _ _ _ _) as [ret w1]. cbn [fst] in B. destruct ret as [[c1|c1| |]|]; try discriminate; [|cbn [fst]; apply B].
  pose proof (A 403 w1 c) as A1. pose proof (A 404 w1 c) as A2. destruct (answer reason 403 w1). destruct (answer reason 404 w1). cbn [fst] in *.
  destruct (c1 =? ERROR_STREAM_PUBLISH_NOT_SUPPORT); [exact A1|]. destruct (c1 =? ERROR_STREAM_SOURCE_NOT_EXITS); [exact A2|discriminate].
Qed.
Lemma route_code g e s c : fst (http_route g e s) <> Some (Err c).
Proof.
  unfold http_route. destruct (cs_ctx s) as [r|]; [|discriminate].
  destruct (find_host (hg_router g) (rq_host r)) as [h|]; [|unfold serve_404; destruct (hr_write_header _ _ _) as [[a b] d]; discriminate].
  assert (P : fst (serve_proxy g e h r s) <> Some (Err c)).
  { unfold serve_proxy. destruct (up_kind (rq_schema r)) as [[]|]; try discriminate. destruct (proxy_info h 80). destruct (negb (he_conn e)); [discriminate|].
    destruct (proxy _ _ _ _ _ _) as [[[ret u1] ups] o]. destruct ret; discriminate. }
  destruct (adapter h); try exact P; try discriminate. unfold serve_stream.
  assert (G : forall d t pub, (forall c, d <> Some (Err c)) ->
    fst (let '(ret, o) := http_stream (hg_reason g) (hg_ins g) (hg_outs g) h r (mkw (he_taken e) (he_edge e) (he_dumps e) d) (cs_out s) in (ret, mkcs t (cs_ctx s) o (cs_up s) pub)) <> Some (Err c)).
  { intros d t pub Hd. pose proof (http_stream_code (hg_reason g) (hg_ins g) (hg_outs g) h r (mkw (he_taken e) (he_edge e) (he_dumps e) d) (cs_out s) c Hd) as A.
    destruct (http_stream _ _ _ _ _ _ _) as [ret o]. exact A. }
  cbv zeta. destruct (eqb_list (rq_method r) (str "POST")); [|apply G; discriminate].
  destruct (publish_start (hg_ins g) h r (he_taken e)) as [f|c1| |]; try (apply G; discriminate).
  destruct (run_plain _ (cs_in s)) as [[[[ps x]|c2| |]|c2| |] t1]; apply G; try discriminate. intros c3. destruct x; discriminate.
Qed.
Lemma conn_code g fuel : forall envs s c, fst (http_conn fuel g envs s) <> Some (Err c).
Proof.
  induction fuel as [|f IH]; intros envs s c; cbn [http_conn]; [discriminate|].
  assert (T : fst (http_turn g (envs O) s) <> Some (Err c)).
  { unfold http_turn. cbn [wchain].
    assert (P : forall c, fst (http_parse g s) <> Some (Err c)).
    { clear. intros c. unfold http_parse. repeat (match goal with |- context [match ?x with _ => _ end] => destruct x end; try discriminate). }
    destruct (http_parse g s) as [[[r|e| |]|] s1]; try discriminate; [|exfalso; apply (P e); reflexivity].
    destruct (r =? PHASE_NO_CONTINUE); [discriminate|]. destruct (r =? PHASE_CONTINUE); [|discriminate].
    pose proof (route_code g (envs O) s1) as R. destruct (http_route g (envs O) s1) as [[[r1|e1| |]|] s2]; try discriminate; [|exfalso; apply (R e1); reflexivity].
    destruct (r1 =? PHASE_NO_CONTINUE); [discriminate|]. destruct (r1 =? PHASE_CONTINUE); discriminate. }
  destruct (http_turn g (envs O) s) as [[[r|e| |]|] s1]; try discriminate; [|exact T]. destruct (r =? 0); [apply IH|discriminate].
Qed.
