(** Lemmas for C242. *)
From Verif Require L_Upload.
From Verif Require Import Base M_IO S_IO L_IO M_Text M_Packet M_Flv M_Conf S_Url M_Url L_Url M_Host M_Http M_Https L_Https M_Upload M_Stream S_Http L_Http L_Http2 L_Http3 M_HttpConn S_HttpConn L_HttpConn S_HttpOut.

Lemma hp_http_schema : http_schema hp_url.
Proof.
  assert (K : forall l s a s' a', s <> SStart -> s <> SSchema -> hp_run s a l = Some (s', a') -> ua_s a' = ua_s a).
  { induction l as [|c l IH]; intros s a s' a' H1 H2 H; cbn [hp_run] in H; [injection H as _ <-; reflexivity|].
    destruct (hp_step s c) as [s1|] eqn:E; [|discriminate].
    assert (s1 <> SStart /\ s1 <> SSchema) as [N1 N2].
    { destruct s; try contradiction; cbn [hp_step] in E;
      repeat match type of E with context [if ?b then _ else _] => destruct b end; try discriminate E; injection E as <-; split; discriminate. }
    rewrite (IH _ _ _ _ N1 N2 H). destruct s1; try reflexivity. contradiction. }
  intros x u. unfold hp_url. destruct (zlen (str "http:/" ++ x) =? 0); [discriminate|].
  change (hp_run SStart (mkua [] [] [] []) (str "http:/" ++ x)) with (hp_run SSlash2 (mkua (str "http") [] [] []) x).
  destruct (hp_run SSlash2 _ x) as [[s' a]|] eqn:E; [|discriminate]. apply K in E; try discriminate. cbn [ua_s] in E. rewrite E.
  cbn [nonnil str]. change (nonnil (str "http")) with (Some (str "http")). cbn iota.
  destruct (nonnil (ua_h a)) as [h|]; [|discriminate]. destruct (hp_host h) as [[h' po]|]; [|discriminate]. intros H. injection H as <-. reflexivity.
Qed.
(** The request of a head: it is parsed or refused, and its schema is "http" or none. *)
Lemma request_of_any lib target method fields : http_schema lib -> let '(pr, r) := request_of lib target method fields in
  (exists c, pr = Ok c) /\ (rq_schema r = str "http" \/ rq_schema r = []).
Proof.
  intros Hl. unfold request_of.
  assert (exists x, match opt_or (kv_find (str "Host") fields) [] with [] => str "http:/" ++ target | _ => str "http://" ++ opt_or (kv_find (str "Host") fields) [] ++ target end = str "http:/" ++ x) as (x & Ex).
  { destruct (opt_or _ _) as [|c l]; [eexists; reflexivity|]. exists (47 :: (c :: l) ++ target). reflexivity. }
  cbv zeta. rewrite Ex. unfold parse_url. destruct (lib (str "http:/" ++ x)) as [u|] eqn:E; [|split; [eauto|right; reflexivity]].
  rewrite (Hl _ _ E). cbn [opt_or]. destruct (query_loop_any (opt_or (up_query u) [])) as (ps & _ & _ & Hq). cbn [rq_params]. rewrite Hq.
  change (eqb_list (str "http") (str "file")) with false. cbn iota. split; [eauto|left; reflexivity].
Qed.

(** ** Nothing else is undefined *)
Lemma sk_write_ub s d : fst (sk_write s d) <> UB.
Proof. unfold sk_write. destruct (sk_room s) as [[|n]|]; [discriminate| |]; destruct (zlen d =? 0); discriminate. Qed.
Lemma hr_body_ub h s d : fst (hr_body h s d) <> UB.
Proof.
  unfold hr_body. destruct (hr_chunked h).
  - pose proof (sk_write_ub s (hexs (zlen d) ++ crlf)) as A. destruct (sk_write s (hexs (zlen d) ++ crlf)) as [[u|c| |] s1]; cbn [fst] in *; try discriminate; try contradiction.
    destruct (0 <? zlen d).
    + pose proof (sk_write_ub s1 d) as B. destruct (sk_write s1 d) as [[u2|c| |] s2]; cbn [fst] in *; try discriminate; try contradiction. apply sk_write_ub.
    + apply sk_write_ub.
  - destruct (0 <? zlen d); [|discriminate]. pose proof (sk_write_ub s d) as B. destruct (sk_write s d) as [[u2|c| |] s2]; cbn [fst] in *; try discriminate; contradiction.
Qed.
Lemma hr_header_ub reason h s : fst (fst (hr_write_header reason h s)) <> UB.
Proof. unfold hr_write_header. pose proof (sk_write_ub s (response_head reason h)) as A. destruct (sk_write s (response_head reason h)) as [r s1]. exact A. Qed.
Lemma hr_write_ub reason h s d : fst (fst (hr_write reason h s d)) <> UB.
Proof.
  unfold hr_write. destruct (hr_sent h).
  - pose proof (hr_body_ub h s d) as A. destruct (hr_body h s d). exact A.
  - pose proof (hr_header_ub reason h s) as A. destruct (hr_write_header reason h s) as [[[u|c| |] h1] s1]; cbn [fst] in *; try discriminate; try contradiction.
    pose proof (hr_body_ub h1 s1 d) as B. destruct (hr_body h1 s1 d). exact B.
Qed.
Lemma hr_wr_ub reason w d : fst (hr_wr reason w d) <> UB.
Proof. unfold hr_wr. pose proof (hr_write_ub reason (fst w) (snd w) d) as A. destruct (hr_write reason (fst w) (snd w) d) as [[r h1] s1]. exact A. Qed.
Lemma t_read_ub t n : fst (t_read t n) <> UB.
Proof. unfold t_read. destruct (n <=? 0); [discriminate|]. destruct (t_chunks t) as [|c cs]; [discriminate|]. destruct (zlen c <=? n); discriminate. Qed.
Lemma read_fully_ub t n : fst (read_fully t n) <> UB.
Proof.
  unfold read_fully. generalize (S (Z.to_nat n)) as f. intros f. generalize (@nil Z) as acc. revert t n. induction f as [|f IH]; intros t n acc; [discriminate|].
  cbn [read_fully_loop]. repeat match goal with |- context [if ?b then _ else _] => destruct b end; try discriminate;
  match goal with |- context [t_read ?a ?b] => pose proof (t_read_ub a b) as A; destruct (t_read a b) as [[d|c| |] t1]; cbn [fst] in * end; try discriminate; try contradiction;
  repeat match goal with |- context [if ?b then _ else _] => destruct b end; try discriminate; apply IH.
Qed.
Lemma size_line_ub f : forall t acc, fst (size_line f t acc) <> UB /\ forall l, fst (size_line f t acc) = Ok l -> 1 <= zlen l.
Proof.
  induction f as [|f IH]; intros t acc; [split; [discriminate|discriminate]|]. cbn [size_line]. pose proof (t_read_ub t 1) as A.
  destruct (t_read t 1) as [[d|c| |] t1]; cbn [fst] in *; try (split; discriminate); try contradiction.
  destruct (_ || _) eqn:E; [|apply IH]. split; [discriminate|]. cbn [fst]. intros l H. injection H as <-. rewrite zlen_app. pose proof (zlen_nonneg acc). pose proof (zlen_nonneg d).
  apply orb_true_iff in E. destruct E as [E|E]; [destruct d; [discriminate|rewrite zlen_cons; pose proof (zlen_nonneg d); lia]|rewrite zlen_app in E; lia].
Qed.
Lemma size_of_line_ub l : 1 <= zlen l -> size_of_line l <> UB.
Proof.
  intros H. unfold size_of_line.
  assert (N : forall i, 0 <= i < zlen l -> exists x, nthz l i = Some x).
  { intros i Hi. apply nthz_in_range. exact Hi. }
  destruct (N (zlen l - 1) ltac:(lia)) as (x & ->). cbn [of_opt bind]. destruct (negb (x =? LF)); [discriminate|].
  destruct (zlen l <? 2) eqn:E; [discriminate|]. destruct (N (zlen l - 2) ltac:(lia)) as (y & ->). cbn [of_opt bind]. destruct (negb (y =? CR)); discriminate.
Qed.
Lemma up_read_ub b t n : fst (fst (up_read b t n)) <> UB.
Proof.
  assert (T : forall b t d, fst (fst (chunk_tail b t d)) <> UB).
  { intros b0 t0 d. unfold chunk_tail. destruct (hb_left b0 =? 0); [|discriminate]. pose proof (read_fully_ub t0 2) as A.
    destruct (read_fully t0 2) as [[tl|c| |] t1]; cbn [fst] in *; try discriminate; try contradiction. destruct (eqb_list tl crlf); discriminate. }
  assert (D : forall b t, fst (fst (up_data b t n)) <> UB).
  { intros b0 t0. unfold up_data. destruct (_ =? 0); [apply T|]. pose proof (read_fully_ub t0 (Z.min (hb_left b0) n)) as A.
    destruct (read_fully t0 (Z.min (hb_left b0) n)) as [[d|c| |] t1]; cbn [fst] in *; try discriminate; try contradiction. apply T. }
  unfold up_read, hb_read. destruct (hb_eof b); [discriminate|]. destruct (hb_chunked b).
  - unfold read_chunked. destruct (hb_left b =? 0); [|apply D]. unfold read_chunk_len. destruct (size_line_ub 34 t []) as [A B].
    destruct (size_line 34 t []) as [[l|c| |] t1]; cbn [fst] in *; try discriminate; try contradiction. pose proof (size_of_line_ub l (B l eq_refl)) as C.
    destruct (size_of_line l); cbn [fst]; try discriminate; try contradiction. apply D.
  - match goal with |- context [t_read t ?k] => pose proof (t_read_ub t k) as A; destruct (t_read t k) as [[d|c| |] t1]; cbn [fst] in * end; try discriminate; contradiction.
Qed.
Lemma relay_ub reason f : forall b up h s, fst (fst (relay f reason b up h s)) <> UB.
Proof.
  induction f as [|f IH]; intros b up h s; [discriminate|]. cbn [relay]. pose proof (up_read_ub b up 1024) as A.
  destruct (up_read b up 1024) as [[[d|c| |] b1] up1]; cbn [fst] in *; try discriminate; try contradiction.
  pose proof (hr_write_ub reason h s d) as B. destruct (hr_write reason h s d) as [[[u|c| |] h1] s1]; cbn [fst] in *; try discriminate; try contradiction. apply IH.
Qed.
Lemma wr_raw_room w d : zlen (bw_out w) + zlen d <= bw_cap w -> wr_raw w d = Ok (mkbw (bw_out w ++ d) (bw_cap w)).
Proof. intros H. unfold wr_raw. replace (_ <=? _) with true by lia. reflexivity. Qed.
Lemma flv_head_any m p tag : exists x, flv_head m p tag = Ok x.
Proof.
  unfold flv_head, wr32, wr24, wr16, wr8.
  repeat (rewrite wr_raw_room by (cbn; lia); cbn [bind bw_out bw_cap app]).
  destruct (is_script p); [eexists; reflexivity|]. destruct (is_audio p); [eexists; reflexivity|]. destruct (negb _); eexists; reflexivity.
Qed.
Section Player.
Context {W : Type} (wr : W -> list Z -> res unit * W) (HW : forall w d, fst (wr w d) <> UB).
Lemma flv_put_ub m p w : fst (fst (flv_put wr m p w)) <> UB.
Proof.
  unfold flv_put. destruct (flv_tag_type (p_stream p)); [|discriminate]. destruct (_ || _ || _); [discriminate|].
  destruct (flv_head_any m p z) as ([hd ds] & ->). pose proof (HW w hd) as A. destruct (wr w hd) as [[u|c| |] w1]; cbn [fst] in *; try discriminate; try contradiction.
  pose proof (HW w1 (p_data p)) as B. destruct (wr w1 (p_data p)) as [[u2|c| |] w2]; cbn [fst] in *; try discriminate; contradiction.
Qed.
Lemma enc_loop_flv : forall ds m w, fst (fst (enc_loop wr (XFlv m) ds w)) <> Some UB.
Proof.
  assert (B : forall ps m w, fst (fst (enc_batch wr (XFlv m) ps w)) <> UB /\ exists m1, snd (fst (enc_batch wr (XFlv m) ps w)) = XFlv m1).
  { induction ps as [|p ps IH]; intros m w; cbn [enc_batch]; [split; [discriminate|eexists; reflexivity]|]. cbn [mux_packet]. pose proof (flv_put_ub m p w) as A.
    destruct (flv_put wr m p w) as [[[u|c| |] m1] w1]; cbn [fst snd] in *; try (split; [discriminate|eexists; reflexivity]); try contradiction. apply IH. }
  induction ds as [|d ds IH]; intros m w; cbn [enc_loop]; [discriminate|]. destruct d as [|p d]; [discriminate|].
  destruct (B (p :: d) m w) as [A (m1 & Em)]. destruct (enc_batch wr (XFlv m) (p :: d) w) as [[[u|c| |] x1] w1]; cbn [fst snd] in *; try discriminate; try contradiction. subst x1. apply IH.
Qed.
Lemma enc_loop_null : forall ds w, fst (fst (enc_loop wr XRtmpNull ds w)) = Some UB <-> media_comes ds.
Proof.
  assert (B : forall ps w, enc_batch wr XRtmpNull ps w = ((if existsb (fun p => is_script p || is_audio p || is_video p) ps then UB else Ok tt), XRtmpNull, w)).
  { induction ps as [|p ps IH]; intros w; cbn [enc_batch]; [reflexivity|]. cbn [mux_packet existsb]. destruct (is_script p || is_audio p || is_video p); [reflexivity|]. cbn [orb]. apply IH. }
  induction ds as [|d ds IH]; intros w; cbn [enc_loop media_comes]; [split; [discriminate|contradiction]|]. destruct d as [|p d]; [split; [discriminate|contradiction]|].
  rewrite B. destruct (existsb _ (p :: d)) eqn:E.
  - split; [|reflexivity]. intros _. left. apply existsb_exists in E. exact E.
  - rewrite IH. split; [auto|]. intros [(q & H1 & H2)|H]; [|exact H]. exfalso. assert (existsb (fun p => is_script p || is_audio p || is_video p) (p :: d) = true) by (apply existsb_exists; eauto). congruence.
Qed.
End Player.

(** ** Formats *)
Lemma fmt_match_spec f e : (fmt_match f e = UB /\ zlen e + 1 < zlen f) \/ (zlen f <= zlen e + 1 /\ fmt_match f e = Ok true /\ begins f e) \/ (zlen f <= zlen e + 1 /\ fmt_match f e = Ok false /\ ~ begins f e).
Proof.
  unfold fmt_match. rewrite zlen_app. change (zlen [0]) with 1. destruct (zlen e + 1 <? zlen f) eqn:E; [left; split; [reflexivity|lia]|]. right.
  pose proof (zlen_nonneg f). destruct (eqb_list f (take (zlen f) (e ++ [0]))) eqn:M.
  - left. split; [lia|]. split; [reflexivity|]. apply eqb_list_spec in M. exists (drop (zlen f) (e ++ [0])).
    transitivity (take (zlen f) (e ++ [0]) ++ drop (zlen f) (e ++ [0])); [symmetry; apply take_drop|]. rewrite <- M. reflexivity.
  - right. split; [lia|]. split; [reflexivity|]. intros (x & K). rewrite K, take_app_exact, eqb_list_refl in M by reflexivity. discriminate.
Qed.
Lemma begins_len f e : begins f e -> zlen f <= zlen e + 1.
Proof. intros (x & K). apply (f_equal zlen) in K. rewrite !zlen_app in K. change (zlen [0]) with 1 in K. pose proof (zlen_nonneg x). lia. Qed.
Lemma fmt_find_spec e : forall fmts, (fmt_find fmts e = UB <-> past_end fmts e) /\ (forall f, fmt_find fmts e = Ok (Some f) <-> selects fmts e f) /\ fmt_find fmts e <> Fuel /\ (forall c, fmt_find fmts e <> Err c).
Proof.
  induction fmts as [|f fmts IH].
  - cbn. split; [split; [discriminate|]; intros ([|] & ? & ? & K & _); discriminate K|]. split; [|split; [discriminate|intros; discriminate]]. intros f. split; [discriminate|]. intros ([|] & ? & K & _); discriminate K.
  - destruct IH as (I1 & I2 & I3 & I4). cbn [fmt_find]. destruct (fmt_match_spec f e) as [(-> & L)|[(L & -> & B)|(L & -> & B)]]; cbn [bind].
    + split; [split; [|reflexivity]; intros _; exists [], f, fmts; split; [reflexivity|]; split; [exact L|constructor]|].
      split; [|split; [discriminate|intros; discriminate]]. intros g. split; [discriminate|]. intros (a & b & E & G & F). exfalso.
      destruct a as [|x a]; injection E as <- E; [apply begins_len in G; lia|apply Forall_inv in F; lia].
    + split; [split; [discriminate|]; intros (a & g & b & E & G & F); exfalso; destruct a as [|x a]; injection E as <- E; [lia|apply Forall_inv in F; contradiction]|].
      split; [|split; [discriminate|intros; discriminate]]. intros g. split.
      * intros K. injection K as <-. exists [], fmts. split; [reflexivity|]. split; [exact B|constructor].
      * intros (a & b & E & G & F). destruct a as [|x a]; injection E as <- E; [reflexivity|]. apply Forall_inv in F. tauto.
    + split; [|split; [|split; assumption]].
      * rewrite I1. split; intros (a & g & b & E & G & F).
        -- subst fmts. exists (f :: a), g, b. split; [reflexivity|]. split; [exact G|]. constructor; assumption.
        -- destruct a as [|x a]; injection E as <- E; [lia|]. exists a, g, b. split; [exact E|]. split; [exact G|]. exact (Forall_inv_tail F).
      * intros g. rewrite I2. split; intros (a & b & E & G & F).
        -- subst fmts. exists (f :: a), b. split; [reflexivity|]. split; [exact G|]. constructor; [split; assumption|exact F].
        -- destruct a as [|x a]; injection E as <- E; [contradiction|]. exists a, b. split; [exact E|]. split; [exact G|]. exact (Forall_inv_tail F).
Qed.

(** ** Handlers *)
Lemma rq_total b t n : nonempty_chunks (t_chunks t) -> 0 <= hb_left b < 2 ^ 64 ->
  exists x b1 t1, rq_read b t n = (x, b1, t1) /\ nonempty_chunks (t_chunks t1) /\ 0 <= hb_left b1 < 2 ^ 64 /\ ((exists d, x = Ok d) \/ exists c, x = Err c).
Proof.
  intros Hne Hl. assert (D : forall b t, nonempty_chunks (t_chunks t) -> 0 <= hb_left b < 2 ^ 64 ->
    exists x b1 t1, rq_data b t n = (x, b1, t1) /\ nonempty_chunks (t_chunks t1) /\ 0 <= hb_left b1 < 2 ^ 64 /\ ((exists d, x = Ok d) \/ exists c, x = Err c)).
  { clear. intros b t Hne Hl. unfold rq_data. destruct (hb_size b =? 0).
    - destruct (chunk_tail_any b t [] 0 Hne ltac:(cbn; lia)) as (x & b1 & t1 & E & A & B & C). exists x, b1, t1. rewrite B. split; [exact E|]. split; [exact A|]. split; [exact Hl|].
      destruct C as [(d & C & _)|C]; eauto.
    - destruct (t_read t (Z.min (hb_left b) n)) as [y t1] eqn:E. destruct (t_read_ne _ _ _ _ Hne E) as [Hne1 [(d & -> & _)|(c & ->)]].
      + destruct (chunk_tail_any (hb_set_left b (u64 (hb_left b - zlen d))) t1 d (zlen d) Hne1 ltac:(lia)) as (x & b1 & t2 & E2 & A & B & C). exists x, b1, t2. rewrite B. split; [exact E2|]. split; [exact A|].
        split; [cbn [hb_left hb_set_left]; unfold u64; apply Z.mod_pos_bound; lia|]. destruct C as [(d' & C & _)|C]; eauto.
      + eexists _, _, _. split; [reflexivity|]. split; [exact Hne1|]. split; [exact Hl|eauto]. }
  unfold rq_read, hb_read. destruct (hb_eof b).
  { eexists _, _, _. split; [reflexivity|]. eauto. }
  destruct (hb_chunked b).
  - unfold read_chunked. destruct (hb_left b =? 0); [|apply D; assumption].
    unfold read_chunk_len.
    destruct (size_line_any 34 t [] Hne) as (x & t1 & -> & Hne1 & [(l & -> & Hll)|(e & ->)]);
      [change (zlen (@nil Z)) with 0; lia|change (zlen (@nil Z)) with 0; lia| |].
    + destruct (size_of_line_any l Hll) as [(m & -> & Hm)|(e & ->)].
      * apply D; assumption.
      * eexists _, _, _. split; [reflexivity|]. eauto.
    + eexists _, _, _. split; [reflexivity|]. eauto.
  - destruct (t_read t _) as [y t1] eqn:E. destruct (t_read_ne _ _ _ _ Hne E) as [Hne1 [(d & -> & _)|(e & ->)]].
    + eexists _, _, _. split; [reflexivity|]. split; [exact Hne1|]. split; [exact Hl|eauto].
    + eexists _, _, _. split; [reflexivity|]. eauto.
Qed.
Lemma over_body_total {A} (p : prog A) : forall b t, nonempty_chunks (t_chunks t) -> 0 <= hb_left b < 2 ^ 64 ->
  exists a t1, run_plain (over_body p b) t = (Ok (Ok a), t1) /\ nonempty_chunks (t_chunks t1).
Proof.
  induction p as [a|n k IHk ke IHe]; intros b t Hne Hl; cbn [over_body run_plain]; [eauto|].
  rewrite run_plain_bind, rq_prog_run. destruct (rq_total b t n Hne Hl) as (x & b1 & t1 & -> & N1 & L1 & [(d & ->)|(c & ->)]); auto.
Qed.
Lemma finish_ub reason X :
  fst (let '(ret, w) := X in let '(ret, w) := match ret with
    | Some (Ok c) => if c =? ERROR_STREAM_PUBLISH_NOT_SUPPORT then answer reason 403 w else if c =? ERROR_STREAM_SOURCE_NOT_EXITS then answer reason 404 w else (ret, w)
    | _ => (ret, w) end in (ret, snd w)) = Some UB <-> fst X = Some UB.
Proof.
  destruct X as [ret w]. cbn [fst].
  assert (A : forall st w, fst (answer reason st w) <> Some UB).
  { intros st w0. unfold answer. pose proof (hr_header_ub reason (hr_init (fst w0) st None (-1) false) (snd w0)) as B.
    destruct (hr_write_header reason (hr_init (fst w0) st None (-1) false) (snd w0)) as [[[u|c| |] h1] s1]; cbn [fst] in *; congruence. }
  destruct ret as [[c|c| |]|]; try (split; [discriminate|discriminate]); try (split; reflexivity).
  pose proof (A 403 w) as A1. pose proof (A 404 w) as A2. destruct (answer reason 403 w) as [r1 w1]. destruct (answer reason 404 w) as [r2 w2]. cbn [fst] in *.
  destruct (c =? ERROR_STREAM_PUBLISH_NOT_SUPPORT); [split; [intros X; cbn in X; congruence|discriminate]|].
  destruct (c =? ERROR_STREAM_SOURCE_NOT_EXITS); [split; [intros X; cbn in X; congruence|discriminate]|]. split; discriminate.
Qed.
Lemma stream_post g e h r s : nonempty_chunks (t_chunks (cs_in s)) -> rq_method r = str "POST" ->
  (fst (serve_stream g e h r s) = Some UB <-> is_source h = true /\ support_publish h (rq_ext r) = true /\
    (past_end (hg_ins g) (rq_ext r) \/ exists f, selects (hg_ins g) (rq_ext r) f /\ he_taken e (cache_key r) = false /\ body_outside g f r (cs_in s))).
Proof.
  intros Hci Hm. unfold serve_stream. rewrite Hm, eqb_list_refl.
  assert (K : forall d sk, fst (http_stream (hg_reason g) (hg_ins g) (hg_outs g) h r (mkw (he_taken e) (he_edge e) (he_dumps e) d) sk) = Some UB <->
    match publish_start (hg_ins g) h r (he_taken e) with Ok _ => d = Some UB | UB => True | _ => False end).
  { intros d sk. unfold http_stream, stream_request. rewrite Hm, eqb_list_refl. cbn [w_taken w_decode]. rewrite finish_ub.
    destruct (publish_start (hg_ins g) h r (he_taken e)) as [f|c| |]; cbn [fst].
    - reflexivity.
    - split; [discriminate|contradiction].
    - split; auto.
    - split; [discriminate|contradiction]. }
  destruct (fmt_find_spec (rq_ext r) (hg_ins g)) as (F1 & F2 & F3 & F4).
  unfold publish_start in *. destruct (is_source h) eqn:E1; cbn [negb orb] in *.
  2:{ match goal with |- context [http_stream ?a ?b ?c h r ?w ?k] => specialize (K None k); destruct (http_stream a b c h r w k) as [ret o] end. cbn [fst] in *. rewrite K. split; [contradiction|intros (X & _); discriminate X]. }
  destruct (support_publish h (rq_ext r)) eqn:E2; cbn [negb orb] in *.
  2:{ match goal with |- context [http_stream ?a ?b ?c h r ?w ?k] => specialize (K None k); destruct (http_stream a b c h r w k) as [ret o] end. cbn [fst] in *. rewrite K. split; [contradiction|intros (_ & X & _); discriminate X]. }
  destruct (fmt_find (hg_ins g) (rq_ext r)) as [[f|]|c| |]; cbn [bind] in *; try contradiction.
  - assert (Nub : ~ past_end (hg_ins g) (rq_ext r)) by (intros X; apply F1 in X; discriminate X).
    assert (Sel : forall f', selects (hg_ins g) (rq_ext r) f' -> f' = f) by (intros f' X; apply F2 in X; congruence).
    assert (Sf : selects (hg_ins g) (rq_ext r) f) by (apply F2; reflexivity).
    destruct (he_taken e (cache_key r)) eqn:Et; cbn [bind] in *.
    + match goal with |- context [http_stream ?a ?b ?c h r ?w ?k] => specialize (K None k); destruct (http_stream a b c h r w k) as [ret o] end. cbn [fst] in *. rewrite K.
      split; [contradiction|]. intros (_ & _ & [X|(f' & _ & X & _)]); [contradiction|discriminate X].
    + assert (R : forall B : Prop, (B <-> body_outside g f r (cs_in s)) -> (B <-> true = true /\ true = true /\ (past_end (hg_ins g) (rq_ext r) \/ exists f, selects (hg_ins g) (rq_ext r) f /\ false = false /\ body_outside g f r (cs_in s)))).
      { intros B HB. rewrite HB. split; [intros X; split; [reflexivity|]; split; [reflexivity|]; right; exists f; auto|].
        intros (_ & _ & [X|(f' & X & _ & Y)]); [contradiction|]. rewrite (Sel _ X) in Y. exact Y. }
      apply R. clear R. unfold body_outside.
      destruct (over_body_total (hg_decode g f) (hb_new (rq_is_chunked r) (rq_content_length r)) (cs_in s) Hci ltac:(cbn; lia)) as ([ps x] & t1 & -> & _). cbn [fst].
      match goal with |- context [http_stream ?a ?b ?c h r (mkw _ _ _ ?d) ?k] => specialize (K d k); destruct (http_stream a b c h r (mkw (he_taken e) (he_edge e) (he_dumps e) d) k) as [ret o] end;
      cbn [fst] in *; rewrite K. split; [intros X; exists ps; destruct x; congruence|intros (ps' & X); injection X as _ ->; reflexivity].
  - match goal with |- context [http_stream ?a ?b ?c h r ?w ?k] => specialize (K None k); destruct (http_stream a b c h r w k) as [ret o] end. cbn [fst] in *. rewrite K.
    split; [contradiction|]. intros (_ & _ & [X|(f' & X & _)]); [apply F1 in X; discriminate X|apply F2 in X; discriminate X].
  - exfalso. apply (F4 c). reflexivity.
  - match goal with |- context [http_stream ?a ?b ?c h r ?w ?k] => specialize (K None k); destruct (http_stream a b c h r w k) as [ret o] end. cbn [fst] in *. rewrite K.
    split; [|auto]. intros _. split; [reflexivity|]. split; [reflexivity|]. left. apply F1. reflexivity.
Qed.

Lemma play_present e h r : (let '(ret, present) := if negb (he_taken e (cache_key r)) && is_edge h then he_edge e else (0, he_taken e (cache_key r)) in negb present || negb (ret =? 0)) = false <-> stream_there e h r.
Proof.
  unfold stream_there. destruct (he_taken e (cache_key r)); cbn [negb andb]; [split; auto; reflexivity|].
  destruct (is_edge h); cbn; [|split; [discriminate|intros (X & _); discriminate X]]. destruct (he_edge e) as [ret present]. split.
  - intros X. destruct present; [|discriminate]. destruct (ret =? 0) eqn:E; [|discriminate]. split; [reflexivity|]. f_equal. lia.
  - intros (_ & X). injection X as -> ->. reflexivity.
Qed.
Lemma stream_play g e h r s : rq_method r <> str "POST" ->
  (fst (serve_stream g e h r s) = Some UB <-> stream_there e h r /\
    (past_end (hg_outs g) (rq_ext r) \/ exists f, selects (hg_outs g) (rq_ext r) f /\ f <> str "flv" /\ media_comes (he_dumps e))).
Proof.
  intros Hm. unfold serve_stream. rewrite (eqb_list_neq _ _ Hm).
  assert (K : fst (http_stream (hg_reason g) (hg_ins g) (hg_outs g) h r (mkw (he_taken e) (he_edge e) (he_dumps e) None) (cs_out s)) = Some UB <->
    stream_there e h r /\ (past_end (hg_outs g) (rq_ext r) \/ exists f, selects (hg_outs g) (rq_ext r) f /\ f <> str "flv" /\ media_comes (he_dumps e))).
  2:{ destruct (http_stream _ _ _ h r _ (cs_out s)) as [ret o]. exact K. }
  unfold http_stream, stream_request. rewrite (eqb_list_neq _ _ Hm). cbn [w_taken w_edge w_dumps]. rewrite finish_ub. unfold play_start.
  pose proof (play_present e h r) as Pp. destruct (if negb (he_taken e (cache_key r)) && is_edge h then he_edge e else (0, he_taken e (cache_key r))) as [ret present].
  destruct (negb present || negb (ret =? 0)).
  { split; [discriminate|]. intros (X & _). apply Pp in X. discriminate X. }
  assert (St : stream_there e h r) by (apply Pp; reflexivity). clear Pp.
  destruct (fmt_find_spec (rq_ext r) (hg_outs g)) as (F1 & F2 & F3 & F4).
  destruct (fmt_find (hg_outs g) (rq_ext r)) as [[f|]|c| |]; cbn [bind]; try contradiction.
  - assert (Nub : ~ past_end (hg_outs g) (rq_ext r)) by (intros X; apply F1 in X; discriminate X).
    assert (Sel : forall f', selects (hg_outs g) (rq_ext r) f' -> f' = f) by (intros f' X; apply F2 in X; congruence).
    assert (Sf : selects (hg_outs g) (rq_ext r) f) by (apply F2; reflexivity).
    destruct (encode (hr_wr (hg_reason g)) (mux_of f) (he_dumps e) (rsp200, cs_out s)) as [en w] eqn:Een. cbn [fst].
    unfold encode, mux_of in Een. destruct (eqb_list f (str "flv")) eqn:Ef.
    + apply eqb_list_spec in Ef. subst f. split.
      * intros ->. exfalso. cbn [mux_header] in Een. pose proof (hr_wr_ub (hg_reason g) (rsp200, cs_out s) flv_default_header) as A.
        destruct (hr_wr (hg_reason g) (rsp200, cs_out s) flv_default_header) as [[u|c| |] w1]; cbn [fst] in A; try discriminate Een; try contradiction.
        pose proof (enc_loop_flv (hr_wr (hg_reason g)) (hr_wr_ub (hg_reason g)) (he_dumps e) flvmux0 w1) as B.
        destruct (enc_loop (hr_wr (hg_reason g)) (XFlv flvmux0) (he_dumps e) w1) as [[r2 x2] w2]. injection Een as -> ->. apply B. reflexivity.
      * intros (_ & [X|(f' & X & Y & _)]); [contradiction|]. apply Sel in X. contradiction.
    + assert (f <> str "flv") by (intros ->; rewrite eqb_list_refl in Ef; discriminate Ef). cbn [mux_header] in Een.
      pose proof (enc_loop_null (hr_wr (hg_reason g)) (he_dumps e) (rsp200, cs_out s)) as B.
      destruct (enc_loop (hr_wr (hg_reason g)) XRtmpNull (he_dumps e) (rsp200, cs_out s)) as [[r2 x2] w2]. injection Een as -> ->. cbn [fst] in B. rewrite B. split.
      * intros X. split; [exact St|]. right. exists f. auto.
      * intros (_ & [X|(f' & _ & _ & X)]); [contradiction|exact X].
  - split; [discriminate|]. intros (_ & [X|(f' & X & _)]); [apply F1 in X; discriminate X|apply F2 in X; discriminate X].
  - exfalso. apply (F4 c). reflexivity.
  - split; [|auto]. intros _. split; [exact St|]. left. apply F1. reflexivity.
Qed.
Lemma sk_write_took s d : d <> [] -> (exists s1, sk_write s d = (Ok tt, s1)) /\ sk_room s <> Some O \/ (exists c s1, sk_write s d = (Err c, s1)) /\ sk_room s = Some O.
Proof.
  intros H. unfold sk_write. assert (zlen d =? 0 = false) as -> by (destruct d; [congruence|rewrite zlen_cons; pose proof (zlen_nonneg d); lia]).
  destruct (sk_room s) as [[|n]|]; [right|left|left]; (split; [eauto|congruence]).
Qed.
Lemma proxy_ub g e h r s : nonempty_chunks (t_chunks (he_upin e)) -> (rq_schema r = str "http" \/ rq_schema r = []) ->
  (fst (serve_proxy g e h r s) = Some UB <-> rq_schema r = str "http" /\ he_conn e = true /\ sk_room (he_upout e) <> Some O /\
    exists head t1, read_head (he_upin e) MAX_HEADER = (Ok head, t1) /\ fst (hg_rsp g head) = 0).
Proof.
  intros Hn [Hs|Hs]; unfold serve_proxy; rewrite Hs; [change (up_kind (str "http")) with (Some UHttp)|change (up_kind []) with (@None upkind)]; cbn iota.
  2:{ split; [discriminate|]. intros (X & _). discriminate X. }
  destruct (proxy_info h 80) as [ip port]. destruct (he_conn e); cbn [negb]; [|split; [discriminate|intros (_ & X & _); discriminate X]].
  assert (K : fst (fst (fst (proxy (hg_reason g) (hg_rsp g) (mkpq (rq_method r) (rq_url r) (rq_host r) (rq_headers r)) (he_upin e) (he_upout e) (cs_out s)))) = UB <->
    sk_room (he_upout e) <> Some O /\ exists head t1, read_head (he_upin e) MAX_HEADER = (Ok head, t1) /\ fst (hg_rsp g head) = 0).
  { unfold proxy. destruct (sk_write_took (he_upout e) (http_request (pq_method (mkpq (rq_method r) (rq_url r) (rq_host r) (rq_headers r))) (pq_url (mkpq (rq_method r) (rq_url r) (rq_host r) (rq_headers r))) (pq_host (mkpq (rq_method r) (rq_url r) (rq_host r) (rq_headers r))) [] (pq_headers (mkpq (rq_method r) (rq_url r) (rq_host r) (rq_headers r))))) as [((s1 & ->) & Rm)|((c & s1 & ->) & Rm)].
    { unfold http_request. intros X. apply app_eq_nil in X. destruct X as [_ X]. discriminate X. }
    2:{ split; [discriminate|]. intros (X & _). contradiction. }
    destruct (read_head_any (he_upin e) MAX_HEADER Hn ltac:(unfold MAX_HEADER; lia)) as (x & t1 & E & Hx). rewrite E.
    destruct Hx as [(d & -> & _)|[(-> & _)|(-> & _)]]; [|split; [discriminate|intros (_ & head & t2 & X & _); discriminate X]|split; [discriminate|intros (_ & head & t2 & X & _); discriminate X]].
    assert (Q : forall B : Prop, (B <-> fst (hg_rsp g d) = 0) -> (B <-> sk_room (he_upout e) <> Some O /\ exists head t2, (Ok d, t1) = (Ok head, t2) /\ fst (hg_rsp g head) = 0)).
    { intros B HB. rewrite HB. split; [intros X; split; [exact Rm|]; eauto|]. intros (_ & head & t2 & X & Y). injection X as -> _. exact Y. }
    apply Q. clear Q. destruct (hg_rsp g d) as [n ri]. cbn [fst]. destruct (n <? 0) eqn:E1; [split; [discriminate|intros; lia]|]. destruct (n =? 0) eqn:E2; [split; [intros; lia|reflexivity]|].
    split; [|intros; lia]. pose proof (hr_header_ub (hg_reason g) (hr_init (mkhr 200 false 0 false []) (ri_status ri) (Some (ri_headers ri)) (ri_cl ri) (ri_chunked ri)) (cs_out s)) as A.
    destruct (hr_write_header _ _ (cs_out s)) as [[[u|c| |] h1] c1]; cbn [fst] in *; try discriminate; try contradiction.
    match goal with |- context [relay ?f ?a ?b ?c ?d2 ?e2] => pose proof (relay_ub a f b c d2 e2) as B; destruct (relay f a b c d2 e2) as [[[u2|c2| |] up2] o2] end; cbn [fst] in *; try discriminate; try contradiction.
    destruct (c2 =? ERROR_HTTP_RES_EOF); discriminate. }
  destruct (proxy _ _ _ _ _ _) as [[[ret u1] ups] o]. cbn [fst] in *. destruct ret as [z|c| |].
  - split; [discriminate|]. intros (_ & _ & X). apply K in X. discriminate X.
  - split; [discriminate|]. intros (_ & _ & X). apply K in X. discriminate X.
  - split; [|reflexivity]. intros _. split; [reflexivity|]. split; [reflexivity|]. apply K. reflexivity.
  - split; [discriminate|]. intros (_ & _ & X). apply K in X. discriminate X.
Qed.
Lemma route_ub g e s r : nonempty_chunks (t_chunks (cs_in s)) -> cs_ctx s = Some r -> nonempty_chunks (t_chunks (he_upin e)) -> (rq_schema r = str "http" \/ rq_schema r = []) ->
  (fst (http_route g e s) = Some UB <-> request_outside g e (cs_in s) r).
Proof.
  intros Hci Hc Hn Hs. unfold http_route. rewrite Hc. destruct (find_host (hg_router g) (rq_host r)) as [h|] eqn:Eh.
  2:{ unfold serve_404. destruct (hr_write_header _ _ _) as [[a b] c]. split; [discriminate|]. intros [h'|h'|h'|h'|h']; congruence. }
  assert (Au : forall h', find_host (hg_router g) (rq_host r) = Some h' -> h' = h) by (intros; congruence).
  assert (NA : adapter h <> A404) by (unfold adapter; repeat match goal with |- context [if ?b then _ else _] => destruct b end; discriminate).
  destruct (adapter h) eqn:Ea; try contradiction.
  all: try (match goal with |- context [serve_stream] => idtac end;
    destruct (eqb_list (rq_method r) (str "POST")) eqn:Em; [apply eqb_list_spec in Em; rewrite (stream_post g e h r s Hci Em)|
      assert (Em' : rq_method r <> str "POST") by (intros X; rewrite X, eqb_list_refl in Em; discriminate Em); rewrite (stream_play g e h r s Em')]; split;
    [intros (A & B & [C|(f & C & D & E)]); [eapply ro_upload_extension; eassumption|eapply ro_upload_body; eassumption]
    |intros [h' A B C D E F|h' f A B C D E F G H|h' A B C D E|h' f A B C D E F G|h' head t1 A B]; apply Au in A; subst h'; try contradiction; try congruence; (split; [assumption|]; split; [assumption|]); [left; assumption|right; eauto]
    |intros (A & [C|(f & C & D & E)]); [eapply ro_play_extension; eassumption|eapply ro_play_no_session; eassumption]
    |intros [h' A B C D E F|h' f A B C D E F G H|h' A B C D E|h' f A B C D E F G|h' head t1 A B]; apply Au in A; subst h'; try contradiction; try congruence; (split; [assumption|]); [left; assumption|right; eauto]]).
  all: try (match goal with |- context [serve_proxy] => idtac end; rewrite (proxy_ub g e h r s Hn Hs); split;
    [intros (A & B & C & head & t1 & D & E); eapply ro_upstream; eassumption
    |intros [h' A B C D E F|h' f A B C D E F G H|h' A B C D E|h' f A B C D E F G|h' head t1 A B C D E F G]; apply Au in A; subst h'; try congruence; (split; [assumption|]; split; [assumption|]; split; [assumption|]; eauto)]).
  split; [discriminate|]. intros [h' A B|h' f A B|h' A B|h' f A B|h' head t1 A B]; apply Au in A; subst h'; congruence.
Qed.

Lemma run_plain_err {A} (p : prog A) : forall t, t_err (snd (run_plain p t)) = t_err t.
Proof.
  induction p as [a|n k IHk ke IHe]; intros t; cbn [run_plain]; [reflexivity|]. unfold t_read. destruct (n <=? 0); [apply IHe|].
  destruct (t_chunks t) as [|c cs]; [apply IHe|]. destruct (zlen c <=? n); rewrite IHk; reflexivity.
Qed.
Lemma read_head_keep t x t1 : nonempty_chunks (t_chunks t) -> read_head t MAX_HEADER = (x, t1) -> nonempty_chunks (t_chunks t1) /\ t_err t1 = t_err t.
Proof.
  intros Hn E. destruct (L_Upload.cut_read _ _ _ (head_okp MAX_HEADER) t [] Hn) as [(y & t2 & A1 & _ & A3 & A4)|(N & _)]; [|congruence].
  rewrite head_prog_run, E in A1. injection A1 as _ <-. auto.
Qed.
(** The connection between requests. *)
Definition fit (s : cst) : Prop := (nonempty_chunks (t_chunks (cs_in s)) /\ t_err (cs_in s) <> 0) /\ forall r, cs_ctx s = Some r -> rq_schema r = str "http" \/ rq_schema r = [].
Lemma route_fit g e s : fit s -> fit (snd (http_route g e s)).
Proof.
  intros S0. pose proof S0 as ((H1 & H0) & H2).
  assert (F : forall t o u p, nonempty_chunks (t_chunks t) -> t_err t = t_err (cs_in s) -> fit (mkcs t (cs_ctx s) o u p)) by (intros; split; [split; [assumption|cbn; congruence]|exact H2]).
  unfold http_route. destruct (cs_ctx s) as [r|] eqn:Ec; [rewrite <- Ec in F|exact S0].
  assert (FP : forall h, fit (snd (serve_proxy g e h r s))).
  { intros h. unfold serve_proxy. destruct (up_kind (rq_schema r)) as [[]|]; try exact S0. destruct (proxy_info h 80) as [ip port]. destruct (negb (he_conn e)); [apply F; [exact H1|reflexivity]|].
    destruct (proxy _ _ _ _ _ _) as [[[ret u1] ups] o]. apply F; [exact H1|reflexivity]. }
  destruct (find_host (hg_router g) (rq_host r)) as [h|]; [|unfold serve_404; destruct (hr_write_header _ _ _) as [[a b] c]; apply F; [exact H1|reflexivity]].
  destruct (adapter h); try apply FP; try exact S0. unfold serve_stream. destruct (eqb_list (rq_method r) (str "POST")).
  2:{ destruct (http_stream _ _ _ _ _ _ _) as [ret o]. apply F; [exact H1|reflexivity]. }
  destruct (publish_start (hg_ins g) h r (he_taken e)) as [f|c| |].
  2-4: destruct (http_stream _ _ _ _ _ _ _) as [ret o]; apply F; [exact H1|reflexivity].
  destruct (over_body_total (hg_decode g f) (hb_new (rq_is_chunked r) (rq_content_length r)) (cs_in s) H1 ltac:(cbn; lia)) as ([ps x] & t1 & Er & N).
  pose proof (run_plain_err (over_body (hg_decode g f) (hb_new (rq_is_chunked r) (rq_content_length r))) (cs_in s)) as Ee. rewrite Er in *. cbn [snd] in Ee.
  destruct (http_stream _ _ _ _ _ _ _) as [ret o]. apply F; [exact N|exact Ee].
Qed.
Lemma turn_ub g e s : http_schema (hg_url g) -> nonempty_chunks (t_chunks (he_upin e)) -> fit s ->
  (fst (http_turn g e s) = Some UB <-> turn_outside g e s) /\ fit (snd (http_turn g e s)).
Proof.
  intros Hl Hu ((H1 & H0) & H2). unfold http_turn. cbn [wchain]. unfold http_parse.
  destruct (read_head_any (cs_in s) MAX_HEADER H1 ltac:(unfold MAX_HEADER; lia)) as (x & t1 & E & Hx). destruct (read_head_keep _ _ _ H1 E) as (N1 & N0). rewrite E.
  assert (Er : forall c, c <> 0 -> x = Err c ->
    (fst (let '(r0, s1) := (Some (Ok c) : option (res Z), mkcs t1 (cs_ctx s) (cs_out s) (cs_up s) (cs_pub s)) in
      match r0 with Some (Ok r) => if r =? PHASE_NO_CONTINUE then (Some (Ok 0), s1) else if r =? PHASE_CONTINUE then match http_route g e s1 with
       | (Some (Ok r1), s2) => if r1 =? PHASE_NO_CONTINUE then (Some (Ok 0), s2) else if r1 =? PHASE_CONTINUE then (Some (Ok r1), s2) else (Some (Ok r1), s2) | (e0, s2) => (e0, s2) end else (Some (Ok r), s1) | e0 => (e0, s1) end) = Some UB <-> turn_outside g e s) /\
    fit (snd (let '(r0, s1) := (Some (Ok c) : option (res Z), mkcs t1 (cs_ctx s) (cs_out s) (cs_up s) (cs_pub s)) in
      match r0 with Some (Ok r) => if r =? PHASE_NO_CONTINUE then (Some (Ok 0), s1) else if r =? PHASE_CONTINUE then match http_route g e s1 with
       | (Some (Ok r1), s2) => if r1 =? PHASE_NO_CONTINUE then (Some (Ok 0), s2) else if r1 =? PHASE_CONTINUE then (Some (Ok r1), s2) else (Some (Ok r1), s2) | (e0, s2) => (e0, s2) end else (Some (Ok r), s1) | e0 => (e0, s1) end))).
  { intros c Hc ->. assert (FS : fit (mkcs t1 (cs_ctx s) (cs_out s) (cs_up s) (cs_pub s))) by (split; [split; [exact N1|cbn; congruence]|exact H2]).
    assert (NT : ~ turn_outside g e s) by (intros [head t2 A|head t2 r A|head t2 n target method fields A]; rewrite E in A; discriminate A).
    unfold PHASE_NO_CONTINUE, PHASE_CONTINUE. destruct (c =? 1); [split; [split; [discriminate|contradiction]|exact FS]|].
    assert (c =? 0 = false) as -> by lia. split; [split; [discriminate|contradiction]|exact FS]. }
  destruct Hx as [(d & -> & _)|[(-> & _)|(-> & _)]].
  2:{ apply (Er (-1)); [lia|reflexivity]. }
  2:{ apply (Er (head_err (t_err (cs_in s)))); [unfold head_err; destruct (0 <? t_err (cs_in s)) eqn:E0; lia|reflexivity]. }
  clear Er. destruct (hg_req g d) as [n [[target method] fields]] eqn:Eq. pose proof (request_of_any (hg_url g) target method fields Hl) as Rq.
  destruct (request_of (hg_url g) target method fields) as [pr r] eqn:Ro. destruct Rq as ((c & ->) & Sc).
  assert (R2 : forall s1, (forall B, (fst (http_route g e s1) = Some UB <-> B) -> fst (match http_route g e s1 with
       | (Some (Ok r1), s2) => if r1 =? PHASE_NO_CONTINUE then (Some (Ok 0), s2) else if r1 =? PHASE_CONTINUE then (Some (Ok r1), s2) else (Some (Ok r1), s2) | (e0, s2) => (e0, s2) end) = Some UB <-> B) /\
     (fit s1 -> fit (snd (match http_route g e s1 with
       | (Some (Ok r1), s2) => if r1 =? PHASE_NO_CONTINUE then (Some (Ok 0), s2) else if r1 =? PHASE_CONTINUE then (Some (Ok r1), s2) else (Some (Ok r1), s2) | (e0, s2) => (e0, s2) end)))).
  { intros s1. pose proof (route_fit g e s1) as RF. destruct (http_route g e s1) as [[[c1|c1| |]|] s2]; cbn [fst snd] in *; (split; [intros B HB; rewrite <- HB|try exact RF]); try reflexivity.
    - destruct (c1 =? PHASE_NO_CONTINUE); [split; discriminate|]. destruct (c1 =? PHASE_CONTINUE); split; discriminate.
    - intros X. apply RF in X. destruct (c1 =? PHASE_NO_CONTINUE); [exact X|]. destruct (c1 =? PHASE_CONTINUE); exact X. }
  destruct (n <=? 0) eqn:En.
  - assert (FS : fit (mkcs t1 (cs_ctx s) (cs_out s) (cs_up s) (cs_pub s))) by (split; [split; [exact N1|cbn; congruence]|exact H2]).
    assert (n =? PHASE_NO_CONTINUE = false) as -> by (unfold PHASE_NO_CONTINUE; lia). destruct (n =? PHASE_CONTINUE) eqn:E0; unfold PHASE_CONTINUE in E0.
    2:{ split; [|exact FS]. split; [discriminate|]. intros [head t2 A B|head t2 r2 A B|head t2 n2 target2 method2 fields2 A B C]; rewrite E in A; injection A as <- <-; rewrite Eq in B; cbn in B; [lia|lia|].
        injection B as -> _ _ _. lia. }
    destruct (R2 (mkcs t1 (cs_ctx s) (cs_out s) (cs_up s) (cs_pub s))) as (R3 & R4). split; [|apply R4, FS]. apply R3.
    assert (n = 0) by lia. subst n. destruct (cs_ctx s) as [r0|] eqn:Ec.
    + rewrite (route_ub g e (mkcs t1 (Some r0) (cs_out s) (cs_up s) (cs_pub s)) r0 N1 eq_refl Hu (H2 r0 eq_refl)). cbn [cs_in]. split.
      * intros X. eapply to_again; [exact E|rewrite Eq; reflexivity|exact Ec|exact X].
      * intros [head t2 A B C|head t2 r2 A B C D|head t2 n2 target2 method2 fields2 A B C]; rewrite E in A; injection A as <- <-; [congruence| |rewrite Eq in B; injection B as <- _ _ _; lia].
        rewrite Ec in C. injection C as <-. exact D.
    + unfold http_route. cbn [cs_ctx fst]. split; [|reflexivity]. intros _. eapply to_none; [exact E|rewrite Eq; reflexivity|exact Ec].
  - change (PHASE_CONTINUE =? PHASE_NO_CONTINUE) with false. change (PHASE_CONTINUE =? PHASE_CONTINUE) with true. cbn iota.
    assert (FS : fit (mkcs t1 (Some r) (cs_out s) (cs_up s) (cs_pub s))) by (split; [split; [exact N1|cbn; congruence]|cbn; intros r0 X; injection X as <-; exact Sc]).
    destruct (R2 (mkcs t1 (Some r) (cs_out s) (cs_up s) (cs_pub s))) as (R3 & R4). split; [|apply R4, FS]. apply R3.
    rewrite (route_ub g e (mkcs t1 (Some r) (cs_out s) (cs_up s) (cs_pub s)) r N1 eq_refl Hu Sc). cbn [cs_in]. split.
    + intros X. eapply to_this; [exact E|exact Eq|lia|rewrite Ro; exact X].
    + intros [head t2 A B C|head t2 r2 A B C D|head t2 n2 target2 method2 fields2 A B C D]; rewrite E in A; injection A as <- <-; rewrite Eq in B; cbn in B; [lia|lia|].
      injection B as <- <- <- <-. rewrite Ro in D. exact D.
Qed.
Lemma conn_ub g : http_schema (hg_url g) -> forall fuel envs s, (forall k, nonempty_chunks (t_chunks (he_upin (envs k)))) -> fit s ->
  (fst (http_conn fuel g envs s) = Some UB <-> exists k s', (k < fuel)%nat /\ after g envs k s s' /\ turn_outside g (envs k) s').
Proof.
  intros Hl. induction fuel as [|f IH]; intros envs s Hu Hf; [split; [discriminate|intros (k & s' & X & _); lia]|].
  cbn [http_conn]. destruct (turn_ub g (envs O) s Hl (Hu O) Hf) as (T1 & T2). destruct (http_turn g (envs O) s) as [ret s1] eqn:E. cbn [fst snd] in *.
  assert (Z0 : forall k s', (k < S f)%nat -> after g envs k s s' -> turn_outside g (envs k) s' -> ret = Some UB \/ ret = Some (Ok 0) /\ exists k', k = S k').
  { intros [|k] s' _ A B; [cbn in A; subst s'; left; apply T1, B|]. right. cbn [after] in A. destruct A as (s2 & A & _). rewrite E in A. injection A as -> _. split; [reflexivity|eauto]. }
  assert (NG : ret <> Some UB -> ret <> Some (Ok 0) -> (ret = Some UB <-> exists k s', (k < S f)%nat /\ after g envs k s s' /\ turn_outside g (envs k) s')).
  { intros N1 N2. split; [contradiction|]. intros (k & s' & A & B & C). destruct (Z0 k s' A B C) as [X|(X & _)]; contradiction. }
  destruct ret as [[r|c| |]|]; try (apply NG; discriminate).
  - destruct (r =? 0) eqn:Er.
    + assert (r = 0) by lia. subst r. rewrite (IH (fun k => envs (S k)) s1 (fun k => Hu (S k)) T2). split.
      * intros (k & s' & A & B & C). exists (S k), s'. split; [lia|]. split; [|exact C]. cbn [after]. exists s1. rewrite E. auto.
      * intros (k & s' & A & B & C). destruct (Z0 k s' A B C) as [X|(_ & k' & ->)]; [discriminate X|]. exists k', s'. split; [lia|]. cbn [after] in B. destruct B as (s2 & B1 & B2).
        rewrite E in B1. injection B1 as <-. auto.
    + apply NG; [discriminate|]. intros X. injection X as ->. discriminate Er.
  - split; [|reflexivity]. intros _. exists O, s. split; [lia|]. split; [reflexivity|]. apply T1. reflexivity.
Qed.
