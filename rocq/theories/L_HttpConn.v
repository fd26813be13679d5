(** Lemmas about whole HTTP connections. *)
From Verif Require Import Base M_IO S_IO L_IO M_Text M_Packet M_Flv M_Conf M_Url M_Host M_Http M_Https L_Https M_Upload M_Stream S_Http L_Http L_Http2 L_Http3 M_HttpConn S_HttpConn.

(** ** Whatever was sent before does not matter *)
Definition pre (o : list Z) (s : sink) : sink := mksk (o ++ sk_out s) (sk_room s) (sk_err s).
Lemma pre_write o s d : sk_write (pre o s) d = (let '(r, s1) := sk_write s d in (r, pre o s1)).
Proof.
  destruct s as [out room er]. unfold sk_write, pre. cbn [sk_room sk_err sk_out]. destruct room as [[|n]|]; [reflexivity| |];
    destruct (zlen d =? 0); try reflexivity; cbn [sk_out sk_room sk_err]; rewrite app_assoc; reflexivity.
Qed.
Lemma pre_header o reason h s :
  hr_write_header reason h (pre o s) = (let '(r, h1, s1) := hr_write_header reason h s in (r, h1, pre o s1)).
Proof. unfold hr_write_header. rewrite pre_write. destruct (sk_write s (response_head reason h)) as [r s1]. reflexivity. Qed.
Lemma pre_body o h s d : hr_body h (pre o s) d = (let '(r, s1) := hr_body h s d in (r, pre o s1)).
Proof.
  unfold hr_body. destruct (hr_chunked h).
  - rewrite pre_write. destruct (sk_write s (hexs (zlen d) ++ crlf)) as [[u|c| |] s1]; try reflexivity.
    destruct (0 <? zlen d); [|rewrite pre_write; destruct (sk_write s1 crlf); reflexivity].
    rewrite pre_write. destruct (sk_write s1 d) as [[v|c| |] s2]; try reflexivity.
    rewrite pre_write. destruct (sk_write s2 crlf); reflexivity.
  - destruct (0 <? zlen d); [|reflexivity].
    rewrite pre_write. destruct (sk_write s d) as [[v|c| |] s2]; reflexivity.
Qed.
Lemma pre_hr_write o reason h s d :
  hr_write reason h (pre o s) d = (let '(r, h1, s1) := hr_write reason h s d in (r, h1, pre o s1)).
Proof.
  unfold hr_write. destruct (hr_sent h).
  - rewrite pre_body. destruct (hr_body h s d). reflexivity.
  - rewrite pre_header. destruct (hr_write_header reason h s) as [[[u|c| |] h1] s1]; try reflexivity.
    rewrite pre_body. destruct (hr_body h1 s1 d). reflexivity.
Qed.
Lemma pre_relay o reason : forall fuel b up h s,
  relay fuel reason b up h (pre o s) = (let '(r, up1, s1) := relay fuel reason b up h s in (r, up1, pre o s1)).
Proof.
  induction fuel as [|f IH]; intros b up h s; cbn [relay]; [reflexivity|].
  destruct (up_read b up 1024) as [[[d|c| |] b1] up1]; try reflexivity.
  rewrite pre_hr_write. destruct (hr_write reason h s d) as [[[u|c| |] h1] s1]; try reflexivity. apply IH.
Qed.
Lemma pre_proxy o reason lib rq up ups s :
  proxy reason lib rq up ups (pre o s) = (let '(r, up1, ups1, s1) := proxy reason lib rq up ups s in (r, up1, ups1, pre o s1)).
Proof.
  unfold proxy. destruct (sk_write ups _) as [[u|c| |] ups1]; try reflexivity.
  destruct (read_head up MAX_HEADER) as [[head|c| |] up1]; try reflexivity.
  destruct (lib head) as [parsed ri]. destruct (parsed <? 0); [reflexivity|]. destruct (parsed =? 0); [reflexivity|].
  rewrite pre_header. destruct (hr_write_header reason _ s) as [[[u1|c| |] h1] s1]; try reflexivity.
  rewrite pre_relay. destruct (relay _ reason _ up1 h1 s1) as [[[u2|c| |] up2] s2]; reflexivity.
Qed.
Definition pre2 (o : list Z) (w : hrsp * sink) : hrsp * sink := (fst w, pre o (snd w)).
Lemma pre_wr o reason w d : hr_wr reason (pre2 o w) d = (let '(r, w1) := hr_wr reason w d in (r, pre2 o w1)).
Proof.
  unfold hr_wr, pre2. cbn [fst snd]. rewrite pre_hr_write. destruct (hr_write reason (fst w) (snd w) d) as [[r h1] s1]. reflexivity.
Qed.
Section Writer.
Context {W : Type} (wr : W -> list Z -> res unit * W) (f : W -> W).
Hypothesis wr_f : forall w d, wr (f w) d = (let '(r, w1) := wr w d in (r, f w1)).
Lemma flv_put_map m p w : flv_put wr m p (f w) = (let '(r, m1, w1) := flv_put wr m p w in (r, m1, f w1)).
Proof.
  unfold flv_put. destruct (flv_tag_type (p_stream p)) as [tag|]; [|reflexivity].
  destruct ((is_video p && fm_fvideo m) || (is_audio p && fm_faudio m) || (is_script p && fm_fmeta m)); [reflexivity|].
  destruct (flv_head m p tag) as [[hd ds]|c| |]; try reflexivity.
  rewrite wr_f. destruct (wr w hd) as [[u|c| |] w1]; try reflexivity.
  rewrite wr_f. destruct (wr w1 (p_data p)) as [[u2|c| |] w2]; reflexivity.
Qed.
Lemma mux_header_map x w : mux_header wr x (f w) = (let '(r, w1) := mux_header wr x w in (r, f w1)).
Proof. destruct x; cbn [mux_header]; [rewrite wr_f; destruct (wr w flv_default_header)| |]; reflexivity. Qed.
Lemma mux_packet_map x p w : mux_packet wr x p (f w) = (let '(r, m1, w1) := mux_packet wr x p w in (r, m1, f w1)).
Proof.
  destruct x as [m| |]; cbn [mux_packet].
  - rewrite flv_put_map. destruct (flv_put wr m p w) as [[r m1] w1]. reflexivity.
  - destruct (is_script p || is_audio p || is_video p); reflexivity.
  - rewrite wr_f. destruct (wr w (p_data p)). reflexivity.
Qed.
Lemma enc_batch_map : forall ps x w, enc_batch wr x ps (f w) = (let '(r, m1, w1) := enc_batch wr x ps w in (r, m1, f w1)).
Proof.
  induction ps as [|p ps IH]; intros x w; cbn [enc_batch]; [reflexivity|].
  rewrite mux_packet_map. destruct (mux_packet wr x p w) as [[[u|c| |] m1] w1]; try reflexivity. apply IH.
Qed.
Lemma enc_loop_map : forall ds x w, enc_loop wr x ds (f w) = (let '(r, m1, w1) := enc_loop wr x ds w in (r, m1, f w1)).
Proof.
  induction ds as [|d ds IH]; intros x w; cbn [enc_loop]; [reflexivity|]. destruct d as [|p ps]; [reflexivity|].
  rewrite enc_batch_map. destruct (enc_batch wr x (p :: ps) w) as [[[u|c| |] m1] w1]; try reflexivity. apply IH.
Qed.
Lemma encode_map x ds w : encode wr x ds (f w) = (let '(r, w1) := encode wr x ds w in (r, f w1)).
Proof.
  unfold encode. rewrite mux_header_map. destruct (mux_header wr x w) as [[u|c| |] w1]; try reflexivity.
  rewrite enc_loop_map. destruct (enc_loop wr x ds w1) as [[r m1] w2]. reflexivity.
Qed.
End Writer.
Lemma pre_answer o reason st w : answer reason st (pre2 o w) = (let '(r, w1) := answer reason st w in (r, pre2 o w1)).
Proof.
  unfold answer, pre2. cbn [fst snd]. rewrite pre_header. destruct (hr_write_header reason _ (snd w)) as [[r h1] s1]. reflexivity.
Qed.
Lemma pre_stream o reason ins outs h r e s :
  http_stream reason ins outs h r e (pre o s) = (let '(x, s1) := http_stream reason ins outs h r e s in (x, pre o s1)).
Proof.
  unfold http_stream. change (rsp200, pre o s) with (pre2 o (rsp200, s)).
  assert (H : stream_request reason ins outs h r e (pre2 o (rsp200, s)) =
              (let '(x, w1) := stream_request reason ins outs h r e (rsp200, s) in (x, pre2 o w1))).
  { unfold stream_request. destruct (eqb_list (rq_method r) (str "POST")).
    - destruct (publish_start ins h r (w_taken e)); reflexivity.
    - destruct (play_start outs h r (w_taken e) (w_edge e)); try reflexivity.
      apply (encode_map (hr_wr reason) (pre2 o)). intros. apply pre_wr. }
  rewrite H. destruct (stream_request reason ins outs h r e (rsp200, s)) as [x w1].
  destruct x as [[c|c| |]|]; try reflexivity.
  destruct (c =? ERROR_STREAM_PUBLISH_NOT_SUPPORT); [rewrite pre_answer; destruct (answer reason 403 w1); reflexivity|].
  destruct (c =? ERROR_STREAM_SOURCE_NOT_EXITS); [rewrite pre_answer; destruct (answer reason 404 w1); reflexivity|reflexivity].
Qed.

(** The effects so far, put before those of a run. *)
Definition after (o : list Z) (ups : list upcall) (pub : list (list Z * list pkt)) (s : cst) : cst :=
  mkcs (cs_in s) (cs_ctx s) (pre o (cs_out s)) (ups ++ cs_up s) (pub ++ cs_pub s).
Lemma after_parse g o ups pub s : http_parse g (after o ups pub s) = (let '(r, s1) := http_parse g s in (r, after o ups pub s1)).
Proof.
  unfold http_parse, after. cbn [cs_in cs_ctx cs_out cs_up cs_pub].
  destruct (read_head (cs_in s) MAX_HEADER) as [[head|c| |] t1]; try reflexivity.
  destruct (hg_req g head) as [n [[tg m] fs]]. destruct (request_of (hg_url g) tg m fs) as [pr r].
  destruct pr; try reflexivity; destruct (n <=? 0); reflexivity.
Qed.
Lemma after_route g e o ups pub s : http_route g e (after o ups pub s) = (let '(r, s1) := http_route g e s in (r, after o ups pub s1)).
Proof.
  unfold http_route. cbn [after cs_ctx]. destruct (cs_ctx s) as [r|] eqn:Ectx; [|reflexivity].
  destruct (find_host (hg_router g) (rq_host r)) as [h|].
  2:{ unfold serve_404. cbn [after cs_out cs_in cs_ctx cs_up cs_pub]. rewrite pre_header.
      destruct (hr_write_header (hg_reason g) _ (cs_out s)) as [[x h1] o1]. reflexivity. }
  assert (P : serve_proxy g e h r (after o ups pub s) = (let '(x, s1) := serve_proxy g e h r s in (x, after o ups pub s1))).
  { unfold serve_proxy. destruct (up_kind (rq_schema r)) as [[| |]|]; try reflexivity.
    destruct (proxy_info h 80) as [ip port]. cbn [after cs_out cs_in cs_ctx cs_up cs_pub].
    destruct (he_conn e); cbn [negb].
    - rewrite pre_proxy. destruct (proxy (hg_reason g) (hg_rsp g) _ (he_upin e) (he_upout e) (cs_out s)) as [[[x up1] ups1] o1].
      unfold after. cbn [cs_out cs_in cs_ctx cs_up cs_pub]. rewrite app_assoc. reflexivity.
    - unfold after. cbn [cs_out cs_in cs_ctx cs_up cs_pub]. rewrite app_assoc. reflexivity. }
  destruct (adapter h); try exact P; [|reflexivity].
  unfold serve_stream. cbn [after cs_out cs_in cs_ctx cs_up cs_pub].
  assert (Q : forall d t p q, q = pub ++ p ->
    (let '(ret, o0) := http_stream (hg_reason g) (hg_ins g) (hg_outs g) h r (mkw (he_taken e) (he_edge e) (he_dumps e) d) (pre o (cs_out s)) in
     (ret, mkcs t (cs_ctx s) o0 (ups ++ cs_up s) q)) =
    (let '(x, s1) := (let '(ret, o0) := http_stream (hg_reason g) (hg_ins g) (hg_outs g) h r (mkw (he_taken e) (he_edge e) (he_dumps e) d) (cs_out s) in
     (ret, mkcs t (cs_ctx s) o0 (cs_up s) p)) in (x, after o ups pub s1))).
  { intros d t p q ->. rewrite pre_stream. destruct (http_stream _ _ _ h r _ (cs_out s)) as [x o1]. reflexivity. }
  destruct (eqb_list (rq_method r) (str "POST")); [|apply Q; reflexivity].
  destruct (publish_start (hg_ins g) h r (he_taken e)); try (apply Q; reflexivity).
  destruct (run_plain _ (cs_in s)) as [[[[ps x]|c| |]|c| |] t1]; apply Q; rewrite ?app_assoc; reflexivity.
Qed.
Lemma after_turn g e o ups pub s : http_turn g e (after o ups pub s) = (let '(r, s1) := http_turn g e s in (r, after o ups pub s1)).
Proof.
  unfold http_turn. cbn [wchain]. rewrite after_parse. destruct (http_parse g s) as [[[c|c| |]|] s1]; try reflexivity.
  destruct (c =? PHASE_NO_CONTINUE); [reflexivity|]. destruct (c =? PHASE_CONTINUE); [|reflexivity].
  rewrite after_route. destruct (http_route g e s1) as [[[d|d| |]|] s2]; try reflexivity.
  destruct (d =? PHASE_NO_CONTINUE); [reflexivity|]. destruct (d =? PHASE_CONTINUE); reflexivity.
Qed.
Lemma after_conn g o ups pub : forall fuel envs s,
  http_conn fuel g envs (after o ups pub s) = (let '(r, s1) := http_conn fuel g envs s in (r, after o ups pub s1)).
Proof.
  induction fuel as [|f IH]; intros envs s; cbn [http_conn]; [reflexivity|].
  rewrite after_turn. destruct (http_turn g (envs O) s) as [[[c|c| |]|] s1]; try reflexivity.
  destruct (c =? 0); [apply IH|reflexivity].
Qed.

(** ** A client that takes everything *)
Definition calm (s : sink) : Prop := sk_room s = None /\ sk_err s = 0.
Lemma calm_pre s : calm s -> s = pre (sk_out s) (mksk [] None 0).
Proof. intros [A B]. destruct s as [o r er]. cbn in *. subst. unfold pre. cbn. rewrite app_nil_r. reflexivity. Qed.
Lemma calm_write s d : calm s -> calm (snd (sk_write s d)).
Proof.
  intros [A B]. destruct s as [o r er]. cbn in *. subst. unfold sk_write. cbn. destruct (zlen d =? 0); split; reflexivity.
Qed.
Lemma calm_header reason h s : calm s -> calm (snd (hr_write_header reason h s)).
Proof. intros H. unfold hr_write_header. pose proof (calm_write s (response_head reason h) H) as C. destruct (sk_write s _). exact C. Qed.
Lemma calm_body h s d : calm s -> calm (snd (hr_body h s d)).
Proof.
  intros H. unfold hr_body. destruct (hr_chunked h).
  - pose proof (calm_write s (hexs (zlen d) ++ crlf) H) as C. destruct (sk_write s _) as [[u|c| |] s1]; try exact C. cbn [snd] in C.
    destruct (0 <? zlen d); [|apply calm_write; exact C].
    pose proof (calm_write s1 d C) as C2. destruct (sk_write s1 d) as [[v|c| |] s2]; try exact C2. apply calm_write. exact C2.
  - destruct (0 <? zlen d); [|exact H]. pose proof (calm_write s d H) as C2. destruct (sk_write s d) as [[v|c| |] s2]; exact C2.
Qed.
Lemma calm_hr_write reason h s d : calm s -> calm (snd (hr_write reason h s d)).
Proof.
  intros H. unfold hr_write. destruct (hr_sent h).
  - pose proof (calm_body h s d H) as C. destruct (hr_body h s d). exact C.
  - pose proof (calm_header reason h s H) as C. destruct (hr_write_header reason h s) as [[[u|c| |] h1] s1]; try exact C. cbn [snd] in C.
    pose proof (calm_body h1 s1 d C) as C2. destruct (hr_body h1 s1 d). exact C2.
Qed.
Lemma calm_relay reason : forall fuel b up h s, calm s -> calm (snd (relay fuel reason b up h s)).
Proof.
  induction fuel as [|f IH]; intros b up h s H; cbn [relay]; [exact H|].
  destruct (up_read b up 1024) as [[[d|c| |] b1] up1]; try exact H.
  pose proof (calm_hr_write reason h s d H) as C. destruct (hr_write reason h s d) as [[[u|c| |] h1] s1]; try exact C. apply IH. exact C.
Qed.
Lemma calm_proxy reason lib rq up ups s : calm s -> calm (snd (proxy reason lib rq up ups s)).
Proof.
  intros H. unfold proxy. destruct (sk_write ups _) as [[u|c| |] ups1]; try exact H.
  destruct (read_head up MAX_HEADER) as [[head|c| |] up1]; try exact H.
  destruct (lib head) as [parsed ri]. destruct (parsed <? 0); [exact H|]. destruct (parsed =? 0); [exact H|].
  match goal with |- context [hr_write_header ?a ?b ?c] => pose proof (calm_header a b c H) as C; destruct (hr_write_header a b c) as [[[u1|c1| |] h1] s1] end; try exact C.
  cbn [snd] in C. match goal with |- context [relay ?a ?b ?c ?d ?e ?f] => pose proof (calm_relay b a c d e f C) as C2; destruct (relay a b c d e f) as [[[u2|c2| |] up2] s2] end; exact C2.
Qed.
Lemma calm_wr reason w d : calm (snd w) -> calm (snd (snd (hr_wr reason w d))).
Proof.
  intros H. unfold hr_wr. pose proof (calm_hr_write reason (fst w) (snd w) d H) as C. destruct (hr_write reason (fst w) (snd w) d) as [[r h1] s1]. exact C.
Qed.
Section Keeps.
Context {W : Type} (wr : W -> list Z -> res unit * W) (I : W -> Prop).
Hypothesis wr_I : forall w d, I w -> I (snd (wr w d)).
Lemma flv_put_keeps m p w : I w -> I (snd (flv_put wr m p w)).
Proof.
  intros H. unfold flv_put. destruct (flv_tag_type (p_stream p)) as [tag|]; [|exact H].
  destruct ((is_video p && fm_fvideo m) || (is_audio p && fm_faudio m) || (is_script p && fm_fmeta m)); [exact H|].
  destruct (flv_head m p tag) as [[hd ds]|c| |]; try exact H.
  pose proof (wr_I w hd H) as C. destruct (wr w hd) as [[u|c| |] w1]; try exact C. cbn [snd] in C.
  pose proof (wr_I w1 (p_data p) C) as C2. destruct (wr w1 (p_data p)) as [[u2|c| |] w2]; exact C2.
Qed.
Lemma mux_packet_keeps x p w : I w -> I (snd (mux_packet wr x p w)).
Proof.
  intros H. destruct x as [m| |]; cbn [mux_packet].
  - pose proof (flv_put_keeps m p w H) as C. destruct (flv_put wr m p w) as [[r m1] w1]. exact C.
  - destruct (is_script p || is_audio p || is_video p); exact H.
  - pose proof (wr_I w (p_data p) H) as C. destruct (wr w (p_data p)). exact C.
Qed.
Lemma enc_batch_keeps : forall ps x w, I w -> I (snd (enc_batch wr x ps w)).
Proof.
  induction ps as [|p ps IH]; intros x w H; cbn [enc_batch]; [exact H|].
  pose proof (mux_packet_keeps x p w H) as C. destruct (mux_packet wr x p w) as [[[u|c| |] m1] w1]; try exact C. apply IH. exact C.
Qed.
Lemma enc_loop_keeps : forall ds x w, I w -> I (snd (enc_loop wr x ds w)).
Proof.
  induction ds as [|d ds IH]; intros x w H; cbn [enc_loop]; [exact H|]. destruct d as [|p ps]; [exact H|].
  pose proof (enc_batch_keeps (p :: ps) x w H) as C. destruct (enc_batch wr x (p :: ps) w) as [[[u|c| |] m1] w1]; try exact C. apply IH. exact C.
Qed.
Lemma encode_keeps x ds w : I w -> I (snd (encode wr x ds w)).
Proof.
  intros H. unfold encode. assert (C : I (snd (mux_header wr x w))) by (destruct x; cbn [mux_header]; [apply wr_I| |]; exact H).
  destruct (mux_header wr x w) as [[u|c| |] w1]; try exact C. cbn [snd] in C.
  pose proof (enc_loop_keeps ds x w1 C) as C2. destruct (enc_loop wr x ds w1) as [[r m1] w2]. exact C2.
Qed.
End Keeps.
Lemma calm_answer reason st w : calm (snd w) -> calm (snd (snd (answer reason st w))).
Proof.
  intros H. unfold answer. pose proof (calm_header reason (hr_init (fst w) st None (-1) false) (snd w) H) as C.
  destruct (hr_write_header reason _ (snd w)) as [[r h1] s1]. exact C.
Qed.
Lemma calm_stream reason ins outs h r e s : calm s -> calm (snd (http_stream reason ins outs h r e s)).
Proof.
  intros H. unfold http_stream.
  assert (C : calm (snd (snd (stream_request reason ins outs h r e (rsp200, s))))).
  { unfold stream_request. destruct (eqb_list (rq_method r) (str "POST")).
    - destruct (publish_start ins h r (w_taken e)); exact H.
    - destruct (play_start outs h r (w_taken e) (w_edge e)); try exact H.
      apply (encode_keeps (hr_wr reason) (fun w => calm (snd w))); [intros; apply calm_wr; assumption|exact H]. }
  destruct (stream_request reason ins outs h r e (rsp200, s)) as [x w1]. cbn [snd] in C.
  destruct x as [[c|c| |]|]; try exact C.
  destruct (c =? ERROR_STREAM_PUBLISH_NOT_SUPPORT); [pose proof (calm_answer reason 403 w1 C) as D; destruct (answer reason 403 w1); exact D|].
  destruct (c =? ERROR_STREAM_SOURCE_NOT_EXITS); [pose proof (calm_answer reason 404 w1 C) as D; destruct (answer reason 404 w1); exact D|exact C].
Qed.

(** A request that is no accepted upload does not look at the connection after
    its head. *)
Definition with_in (t : transport) (s : cst) : cst := mkcs t (cs_ctx s) (cs_out s) (cs_up s) (cs_pub s).
Lemma route_input g e r s t : cs_ctx s = Some r ->
  (forall m f, find_host (hg_router g) (rq_host r) = Some m -> adapter m = AStream -> rq_method r = str "POST" ->
     publish_start (hg_ins g) m r (he_taken e) = Ok f -> False) ->
  http_route g e (with_in t s) = (let '(x, s1) := http_route g e s in (x, with_in t s1)).
Proof.
  intros Ec Hno. unfold http_route. cbn [with_in cs_ctx]. rewrite Ec.
  destruct (find_host (hg_router g) (rq_host r)) as [h|] eqn:Eh.
  2:{ unfold serve_404. cbn [with_in cs_out cs_in cs_ctx cs_up cs_pub].
      destruct (hr_write_header (hg_reason g) _ (cs_out s)) as [[x h1] o1]. reflexivity. }
  assert (P : serve_proxy g e h r (with_in t s) = (let '(x, s1) := serve_proxy g e h r s in (x, with_in t s1))).
  { unfold serve_proxy. destruct (up_kind (rq_schema r)) as [[| |]|]; try reflexivity.
    destruct (proxy_info h 80) as [ip port]. cbn [with_in cs_out cs_in cs_ctx cs_up cs_pub].
    destruct (he_conn e); cbn [negb]; [|reflexivity].
    destruct (proxy (hg_reason g) (hg_rsp g) _ (he_upin e) (he_upout e) (cs_out s)) as [[[x up1] ups1] o1]. reflexivity. }
  destruct (adapter h) eqn:Ea; try exact P; [|reflexivity].
  unfold serve_stream. cbn [with_in cs_out cs_in cs_ctx cs_up cs_pub].
  assert (G : forall d p,
    (let '(ret, o0) := http_stream (hg_reason g) (hg_ins g) (hg_outs g) h r (mkw (he_taken e) (he_edge e) (he_dumps e) d) (cs_out s) in
     (ret, mkcs t (cs_ctx s) o0 (cs_up s) p)) =
    (let '(x, s1) := (let '(ret, o0) := http_stream (hg_reason g) (hg_ins g) (hg_outs g) h r (mkw (he_taken e) (he_edge e) (he_dumps e) d) (cs_out s) in
     (ret, mkcs (cs_in s) (cs_ctx s) o0 (cs_up s) p)) in (x, with_in t s1))).
  { intros d p. destruct (http_stream _ _ _ h r _ (cs_out s)) as [x o1]. reflexivity. }
  destruct (eqb_list (rq_method r) (str "POST")) eqn:Em; [|apply G].
  destruct (publish_start (hg_ins g) h r (he_taken e)) as [f|c| |] eqn:Ep; try apply G.
  exfalso. apply (Hno h f); auto. apply eqb_list_spec. exact Em.
Qed.
Lemma route_calm g e s : calm (cs_out s) -> calm (cs_out (snd (http_route g e s))).
Proof.
  intros H. unfold http_route. destruct (cs_ctx s) as [r|]; [|exact H].
  destruct (find_host (hg_router g) (rq_host r)) as [h|].
  2:{ unfold serve_404. pose proof (calm_header (hg_reason g) (hr_init (mkhr 200 false 0 false []) 404 None 0 false) (cs_out s) H) as C.
      destruct (hr_write_header (hg_reason g) _ (cs_out s)) as [[x h1] o1]. exact C. }
  assert (P : calm (cs_out (snd (serve_proxy g e h r s)))).
  { unfold serve_proxy. destruct (up_kind (rq_schema r)) as [[| |]|]; try exact H.
    destruct (proxy_info h 80) as [ip port]. destruct (he_conn e); cbn [negb]; [|exact H].
    match goal with |- context [proxy ?a ?b ?c ?d ?e ?f] => pose proof (calm_proxy a b c d e f H) as C; destruct (proxy a b c d e f) as [[[x up1] ups1] o1] end.
    exact C. }
  destruct (adapter h); try exact P; [|exact H].
  unfold serve_stream.
  assert (G : forall d t p, calm (cs_out (snd
    (let '(ret, o0) := http_stream (hg_reason g) (hg_ins g) (hg_outs g) h r (mkw (he_taken e) (he_edge e) (he_dumps e) d) (cs_out s) in
     (ret, mkcs t (cs_ctx s) o0 (cs_up s) p))))).
  { intros d t p. match goal with |- context [http_stream ?a ?b ?c ?d ?e ?f ?k] => pose proof (calm_stream a b c d e f k H) as C; destruct (http_stream a b c d e f k) as [x o1] end. exact C. }
  destruct (eqb_list (rq_method r) (str "POST")); [|apply G].
  destruct (publish_start (hg_ins g) h r (he_taken e)) as [f|c| |]; try apply G.
  destruct (run_plain _ (cs_in s)) as [[[[ps x]|c| |]|c| |] t1]; apply G.
Qed.

Lemma route_pub g e r s : cs_ctx s = Some r ->
  (forall m f, find_host (hg_router g) (rq_host r) = Some m -> adapter m = AStream -> rq_method r = str "POST" ->
     publish_start (hg_ins g) m r (he_taken e) = Ok f -> False) ->
  cs_pub (snd (http_route g e s)) = cs_pub s.
Proof.
  intros Ec Hno. unfold http_route. rewrite Ec. destruct (find_host (hg_router g) (rq_host r)) as [h|] eqn:Eh.
  2:{ unfold serve_404. destruct (hr_write_header (hg_reason g) _ (cs_out s)) as [[x h1] o1]. reflexivity. }
  assert (P : cs_pub (snd (serve_proxy g e h r s)) = cs_pub s).
  { unfold serve_proxy. destruct (up_kind (rq_schema r)) as [[| |]|]; try reflexivity.
    destruct (proxy_info h 80) as [ip port]. destruct (he_conn e); cbn [negb]; [|reflexivity].
    destruct (proxy (hg_reason g) (hg_rsp g) _ (he_upin e) (he_upout e) (cs_out s)) as [[[x up1] ups1] o1]. reflexivity. }
  destruct (adapter h) eqn:Ea; try exact P; [|reflexivity].
  unfold serve_stream.
  assert (G : forall d p, cs_pub (snd
    (let '(ret, o0) := http_stream (hg_reason g) (hg_ins g) (hg_outs g) h r (mkw (he_taken e) (he_edge e) (he_dumps e) d) (cs_out s) in
     (ret, mkcs (cs_in s) (cs_ctx s) o0 (cs_up s) p))) = p).
  { intros d p. destruct (http_stream _ _ _ h r _ (cs_out s)) as [x o1]. reflexivity. }
  destruct (eqb_list (rq_method r) (str "POST")) eqn:Em; [|apply G].
  destruct (publish_start (hg_ins g) h r (he_taken e)) as [f|c| |] eqn:Ep; try apply G.
  exfalso. apply (Hno h f); auto. apply eqb_list_spec. exact Em.
Qed.

(** One request on a connection does what it does alone. *)
Lemma turn_alone g e h t ctx rest : head_ok g h -> ~ accepts_upload g e h -> nonempty_chunks (t_chunks t) -> t_stream t = h ++ rest ->
  exists t1 ctx1 s1, t_stream t1 = rest /\ nonempty_chunks (t_chunks t1) /\ t_err t1 = t_err t /\
    alone g e h = (fst (alone g e h), s1) /\ calm (cs_out s1) /\ cs_pub s1 = [] /\
    http_turn g e (mkcs t ctx (mksk [] None 0) [] []) = (fst (alone g e h), mkcs t1 ctx1 (cs_out s1) (cs_up s1) (cs_pub s1)).
Proof.
  intros (Hh & Hm & Hn) Hacc Hne Hst.
  destruct (read_head_ok h rest t MAX_HEADER (is_head_shape h Hh) Hne Hst Hm) as (t1 & R1 & A1 & A2 & A3).
  assert (Hne0 : nonempty_chunks (t_chunks (mktr [h] 0))).
  { cbn [t_chunks]. constructor; [|constructor]. pose proof (head_len h (is_head_shape h Hh)). destruct h; [change (zlen (@nil Z)) with 0 in *; lia|discriminate]. }
  assert (Hst0 : t_stream (mktr [h] 0) = h ++ []) by (unfold t_stream; cbn; reflexivity).
  destruct (read_head_ok h [] (mktr [h] 0) MAX_HEADER (is_head_shape h Hh) Hne0 Hst0 Hm) as (t0 & R0 & _).
  unfold alone, http_turn, cst0. cbn [wchain]. unfold http_parse. cbn [cs_in cs_ctx cs_out cs_up cs_pub]. rewrite R1, R0.
  unfold accepts_upload in Hacc. destruct (hg_req g h) as [n [[tg m] fs]]. cbn [fst] in Hn.
  destruct (request_of (hg_url g) tg m fs) as [pr r]. cbn [snd] in Hacc.
  assert (K : calm (mksk [] None 0)) by (split; reflexivity).
  assert (Hno : forall m0 f, find_host (hg_router g) (rq_host r) = Some m0 -> adapter m0 = AStream -> rq_method r = str "POST" ->
     publish_start (hg_ins g) m0 r (he_taken e) = Ok f -> False).
  { intros m0 f B1 B2 B3 B4. apply Hacc. exists m0, f. auto. }
  assert (Main : forall b : bool, (b = true -> n < 0) -> exists t2 ctx1 s1, t_stream t2 = rest /\ nonempty_chunks (t_chunks t2) /\ t_err t2 = t_err t /\
     let R (c : option ureq) (tt : transport) := match (if b then (Some (Ok n), mkcs tt c (mksk [] None 0) [] []) else (Some (Ok PHASE_CONTINUE), mkcs tt (Some r) (mksk [] None 0) [] [])) with
        | (Some (Ok r0), s1) => if r0 =? PHASE_NO_CONTINUE then (Some (Ok 0), s1) else if r0 =? PHASE_CONTINUE then
             match http_route g e s1 with
             | (Some (Ok r1), s2) => if r1 =? PHASE_NO_CONTINUE then (Some (Ok 0), s2) else if r1 =? PHASE_CONTINUE then (Some (Ok r1), s2) else (Some (Ok r1), s2)
             | (Some (Err _) as e0, s2) | (Some UB as e0, s2) | (Some Fuel as e0, s2) | (None as e0, s2) => (e0, s2) end
           else (Some (Ok r0), s1)
        | (Some (Err _) as e0, s2) | (Some UB as e0, s2) | (Some Fuel as e0, s2) | (None as e0, s2) => (e0, s2) end in
     R None t0 = (fst (R None t0), s1) /\ calm (cs_out s1) /\ cs_pub s1 = [] /\ R ctx t1 = (fst (R None t0), mkcs t2 ctx1 (cs_out s1) (cs_up s1) (cs_pub s1))).
  { intros b Hb. destruct b; cbn beta iota zeta.
    - specialize (Hb eq_refl). unfold PHASE_NO_CONTINUE, PHASE_CONTINUE. destruct (n =? 1) eqn:E1; [lia|]. destruct (n =? 0) eqn:E0; [lia|].
      eexists t1, ctx, _. repeat (split; [assumption|]). split; [reflexivity|]. split; [exact K|split; reflexivity].
    - change (PHASE_CONTINUE =? PHASE_NO_CONTINUE) with false. cbn iota. rewrite Z.eqb_refl.
      pose proof (route_input g e r (mkcs t0 (Some r) (mksk [] None 0) [] []) t1 eq_refl Hno) as RI.
      pose proof (route_calm g e (mkcs t0 (Some r) (mksk [] None 0) [] []) K) as RC.
      pose proof (route_pub g e r (mkcs t0 (Some r) (mksk [] None 0) [] []) eq_refl Hno) as RP.
      unfold with_in at 1 in RI. cbn [cs_ctx cs_out cs_up cs_pub] in RI.
      rewrite RI. destruct (http_route g e (mkcs t0 (Some r) (mksk [] None 0) [] [])) as [x s2]. cbn [snd cs_pub] in RC, RP.
      exists t1, (cs_ctx s2), s2. repeat (split; [assumption|]).
      destruct x as [[c|c| |]|]; try (split; [reflexivity|split; [exact RC|split; [exact RP|reflexivity]]]).
      destruct (c =? PHASE_NO_CONTINUE); [split; [reflexivity|split; [exact RC|split; [exact RP|reflexivity]]]|].
      destruct (c =? PHASE_CONTINUE); (split; [reflexivity|split; [exact RC|split; [exact RP|reflexivity]]]). }
  destruct pr as [c|c| |].
  - destruct (Main (n <=? 0)) as (t2 & c1 & s1 & B1 & B2 & B3 & B4 & B5 & B6 & B7); [intros; lia|]. exists t2, c1, s1. auto 9.
  - destruct (Main (n <=? 0)) as (t2 & c1 & s1 & B1 & B2 & B3 & B4 & B5 & B6 & B7); [intros; lia|]. exists t2, c1, s1. auto 9.
  - eexists t1, ctx, _. repeat (split; [assumption|]). split; [reflexivity|]. split; [exact K|split; reflexivity].
  - eexists t1, ctx, _. repeat (split; [assumption|]). split; [reflexivity|]. split; [exact K|split; reflexivity].
Qed.

Lemma conn_requests g : forall hs envs t ctx rest, all_stay_open g envs hs -> nonempty_chunks (t_chunks t) -> t_stream t = concat hs ++ rest ->
  exists t1 ctx1, t_stream t1 = rest /\ nonempty_chunks (t_chunks t1) /\ t_err t1 = t_err t /\
    forall f, http_conn (length hs + f) g envs (mkcs t ctx (mksk [] None 0) [] []) =
      (let '(r, s1) := http_conn f g (fun k => envs (length hs + k)%nat) (mkcs t1 ctx1 (mksk [] None 0) [] []) in
       (r, after (outs_of g envs hs) (ups_of g envs hs) [] s1)).
Proof.
  induction hs as [|h hs IH]; intros envs t ctx rest Ho Hne Hst.
  - exists t, ctx. split; [exact Hst|]. split; [exact Hne|]. split; [reflexivity|]. intros f. cbn [length Nat.add outs_of ups_of].
    change (fun k => envs k) with envs. destruct (http_conn f g envs _) as [r [a b c d p]]. unfold after, pre. cbn. destruct c. reflexivity.
  - destruct Ho as [(Hk & Hacc & Hx) Ho]. cbn [concat] in Hst. rewrite <- app_assoc in Hst.
    destruct (turn_alone g (envs O) h t ctx _ Hk Hacc Hne Hst) as (t1 & c1 & s1 & A1 & A2 & A3 & A4 & A5 & A6 & A7).
    destruct (IH (fun k => envs (S k)) t1 c1 rest Ho A2 A1) as (t2 & c2 & B1 & B2 & B3 & B4).
    exists t2, c2. split; [exact B1|]. split; [exact B2|]. split; [rewrite B3; exact A3|].
    intros f. cbn [length Nat.add http_conn]. rewrite A7, Hx. cbn beta iota.
    assert (E : mkcs t1 c1 (cs_out s1) (cs_up s1) (cs_pub s1) = after (alone_out g (envs O) h) (alone_up g (envs O) h) [] (mkcs t1 c1 (mksk [] None 0) [] [])).
    { unfold alone_out, alone_up. rewrite A4. cbn [snd]. unfold after. cbn [cs_in cs_ctx cs_out cs_up cs_pub].
      rewrite <- calm_pre by exact A5. rewrite A6, app_nil_r. reflexivity. }
    rewrite Z.eqb_refl, E, after_conn, B4.
    match goal with |- context [http_conn f g ?x ?y] => destruct (http_conn f g x y) as [r s2] end.
    unfold after, pre. cbn [cs_in cs_ctx cs_out cs_up cs_pub sk_out sk_room sk_err outs_of ups_of]. rewrite !app_assoc. reflexivity.
Qed.

(** ** Single requests *)
Lemma alone_route g e h r : request_in g h r -> exists t0, alone g e h =
  match http_route g e (mkcs t0 (Some r) (mksk [] None 0) [] []) with
  | (Some (Ok c), s) => (Some (Ok (if c =? 1 then 0 else c)), s)
  | x => x
  end.
Proof.
  intros (Hh & Hm & Hn & tg & m & fs & c & E1 & E2).
  assert (Hne0 : nonempty_chunks (t_chunks (mktr [h] 0))).
  { cbn [t_chunks]. constructor; [|constructor]. pose proof (head_len h (is_head_shape h Hh)). destruct h; [change (zlen (@nil Z)) with 0 in *; lia|discriminate]. }
  assert (Hst0 : t_stream (mktr [h] 0) = h ++ []) by (unfold t_stream; cbn; reflexivity).
  destruct (read_head_ok h [] (mktr [h] 0) MAX_HEADER (is_head_shape h Hh) Hne0 Hst0 Hm) as (t0 & R0 & _).
  exists t0. unfold alone, http_turn, cst0. cbn [wchain]. unfold http_parse. cbn [cs_in cs_ctx cs_out cs_up cs_pub]. rewrite R0.
  destruct (hg_req g h) as [n [[tg' m'] fs']]. cbn [fst snd] in *. injection E1 as -> -> ->. rewrite E2.
  destruct (n <=? 0) eqn:En; [lia|]. change (PHASE_CONTINUE =? PHASE_NO_CONTINUE) with false. cbn iota. rewrite Z.eqb_refl.
  destruct (http_route g e _) as [[[d|d| |]|] s2]; try reflexivity. unfold PHASE_NO_CONTINUE, PHASE_CONTINUE.
  destruct (d =? 1) eqn:E; [reflexivity|]. destruct (d =? 0); reflexivity.
Qed.
Lemma alone_404 g e h r : request_in g h r -> find_host (hg_router g) (rq_host r) = None ->
  fst (alone g e h) = Some (Ok 0) /\ alone_out g e h = response_head (hg_reason g) (mkhr 404 false 0 false []) /\ alone_up g e h = [].
Proof.
  intros Hr Hf. unfold alone_out, alone_up. destruct (alone_route g e h r Hr) as (t0 & ->).
  unfold http_route. cbn [cs_ctx]. rewrite Hf. unfold serve_404. cbn [cs_out]. rewrite hr_header_none by reflexivity.
  cbn [fst snd cs_out cs_up sk_out app]. auto.
Qed.
Lemma alone_proxy g e h r sent : request_in g h r -> proxied_to g e r sent ->
  exists addr port,
  alone g e h = (let '(ret, _, ups, o) := proxy (hg_reason g) (hg_rsp g) (mkpq (rq_method r) (rq_url r) (rq_host r) (rq_headers r))
                                   (he_upin e) (he_upout e) (mksk [] None 0) in
    match ret with
    | Ok c | Err c => (Some (Ok (if c =? 1 then 0 else c)), mkcs (cs_in (snd (alone g e h))) (Some r) o [(addr, port, sk_out ups)] [])
    | UB => (Some UB, mkcs (cs_in (snd (alone g e h))) (Some r) o [(addr, port, sk_out ups)] [])
    | Fuel => (Some Fuel, mkcs (cs_in (snd (alone g e h))) (Some r) o [(addr, port, sk_out ups)] [])
    end).
Proof.
  intros Hr ((m & Hf & Ha) & Hs & Hcn & _). destruct (alone_route g e h r Hr) as (t0 & ->).
  unfold http_route. cbn [cs_ctx]. rewrite Hf, Ha. unfold serve_proxy. rewrite Hs. change (up_kind (str "http")) with (Some UHttp). cbn iota.
  destruct (proxy_info m 80) as [ip port]. rewrite Hcn. cbn [negb cs_out cs_in cs_ctx cs_up cs_pub app].
  exists (connect_addr ip r), port.
  destruct (proxy (hg_reason g) (hg_rsp g) _ (he_upin e) (he_upout e) (mksk [] None 0)) as [[[ret up1] ups] o]. destruct ret; reflexivity.
Qed.

(** Field values of the responses. *)
Lemma field_values_app k a b : field_values k (a ++ b) = field_values k a ++ field_values k b.
Proof. unfold field_values. rewrite filter_app, map_app. reflexivity. Qed.
Lemma field_values_filter k p l : (forall f, same_name (fst f) k = true -> p f = true) -> field_values k (filter p l) = field_values k l.
Proof.
  intros H. unfold field_values. induction l as [|f l IH]; [reflexivity|]. cbn [filter]. destruct (same_name (fst f) k) eqn:E.
  - rewrite (H f E). cbn [filter]. rewrite E. cbn [map]. rewrite IH. reflexivity.
  - destruct (p f); [cbn [filter]; rewrite E|]; exact IH.
Qed.
Lemma field_values_sub k (P : list Z -> Prop) p l : Forall P (field_values k l) -> Forall P (field_values k (filter p l)).
Proof.
  unfold field_values. induction l as [|f l IH]; intros H; [exact H|]. cbn [filter] in *. destruct (same_name (fst f) k) eqn:E.
  - cbn [map] in H. inversion_clear H. destruct (p f); [|auto]. cbn [filter]. rewrite E. cbn [map]. constructor; auto.
  - destruct (p f); [cbn [filter]; rewrite E|]; auto.
Qed.
Lemma server_values k b : same_name (str "Server") k = false -> field_values k (if b : bool then [] else [(str "Server", str "sps")]) = [].
Proof. intros H. destruct b; [reflexivity|]. unfold field_values. cbn [filter fst]. rewrite H. reflexivity. Qed.
Lemma rsp_te h : field_values (str "transfer-encoding") (rsp_fields h) =
  (if hr_chunked h then [str "chunked"] else []) ++ field_values (str "transfer-encoding") (hr_headers h).
Proof.
  unfold rsp_fields. rewrite !field_values_app, (server_values (str "transfer-encoding") _ eq_refl), app_nil_r. f_equal.
  - destruct (hr_chunked h); [reflexivity|]. destruct (0 <=? hr_cl h); reflexivity.
  - apply field_values_filter. intros [k v] H. cbn [fst] in *. destruct (eqb_list k (str "Content-Length")) eqn:E; [|reflexivity].
    apply eqb_list_spec in E. subst k. discriminate.
Qed.
Lemma rsp_cl h : hr_chunked h = false -> 0 <= hr_cl h -> Forall (eq (decs (hr_cl h))) (field_values (str "content-length") (hr_headers h)) ->
  field_values (str "content-length") (rsp_fields h) <> [] /\ Forall (eq (decs (hr_cl h))) (field_values (str "content-length") (rsp_fields h)).
Proof.
  intros Hc Hl HF. unfold rsp_fields. rewrite Hc. destruct (0 <=? hr_cl h) eqn:E; [|lia]. rewrite !field_values_app, (server_values (str "content-length") _ eq_refl), app_nil_r.
  change (field_values (str "content-length") [(str "Content-Length", decs (hr_cl h))]) with [decs (hr_cl h)]. split; [discriminate|].
  constructor; [reflexivity|]. apply field_values_sub. exact HF.
Qed.

Lemma answered_one g e h m st body : answered g e h m st body -> stays_open g e h /\
  forall ms rest l, answers ms rest l -> answers (m :: ms) (alone_out g e h ++ rest) ((st, body) :: l).
Proof.
  intros H. destruct H as [r Hr Hf Hp|r head parsed st hd body rest Hr Hx Hh Hm Hlib Hpa Hb Hs0 Hre Hwf Hnb Hte Hcl|r head parsed st len hd wire body rest Hr Hx Hh Hm Hlib Hpa Hch Hs0 Hre Hwf Hnb Hte].
  - destruct (alone_404 g e h r Hr Hf) as (A & B & C). split.
    + destruct Hr as (Q1 & Q2 & Q3 & tg & m & fs & c & Q4 & Q5). split; [split; [exact Q1|split; [exact Q2|lia]]|]. split; [|exact A].
      unfold accepts_upload. destruct (hg_req g h) as [n [[tg' m'] fs']]. cbn [snd] in Q4. injection Q4 as -> -> ->. rewrite Q5. cbn [snd].
      intros (m0 & f & B1 & _). congruence.
    + intros ms rest l Hl. rewrite B.
      eapply (an_cons _ _ _ (decs 404) (hg_reason g 404) (rsp_fields (mkhr 404 false 0 false [])) rest 404 []); [|apply decs_ok; lia| |exact Hl].
      * rewrite response_head_message; [reflexivity|cbn; lia|exact Hp|constructor].
      * destruct (eqb_list (rq_method r) (str "HEAD")) eqn:Eh.
        -- apply fr_none. left. apply eqb_list_spec. exact Eh.
        -- apply (fr_length _ _ _ [] rest (decs 0)).
           ++ intros [B1|[B1|[B1|B1]]]; try lia. apply eqb_list_spec in B1. congruence.
           ++ rewrite rsp_te. reflexivity.
           ++ discriminate.
           ++ repeat constructor.
           ++ change (zlen (@nil Z)) with 0. apply decs_ok. lia.
  - destruct Hx as (X1 & X2 & X3 & X4 & X5 & X6).
    destruct (proxy_start (hg_reason g) (hg_rsp g) (mkpq (rq_method r) (rq_url r) (rq_host r) (rq_headers r)) (he_upin e) (he_upout e) (mksk [] None 0) head parsed _ (body ++ rest) Hh Hm X5 X6 Hlib Hpa X4 eq_refl) as (up1 & U1 & U2 & Epx).
    unfold rsp_of_lib in Epx. cbn [ri_status ri_cl ri_chunked ri_headers] in Epx.
    assert (E32 : s32 (zlen body) = zlen body) by (unfold s32; rewrite Z.mod_small by lia; lia). rewrite E32 in Epx.
    set (h1 := mkhr st true (zlen body) false hd) in *. set (h0 := mkhr st false (zlen body) false hd) in *.
    destruct (relay_fixed (S (S (length (body ++ rest)))) (hg_reason g) (zlen body) (hb_new false (zlen body)) up1 h1
       (mksk ([] ++ response_head (hg_reason g) h0) None 0) body rest) as (up2 & s2 & ER & A & B); try reflexivity.
    { unfold fx_inv. cbn. repeat split; try lia; assumption. } { rewrite app_length. unfold zlen. lia. }
    cbn [sk_out sk_err] in Epx. rewrite ER in Epx. rewrite Z.eqb_refl in Epx.
    destruct (alone_proxy g e h r (head ++ body ++ rest) Hr) as (addr & port & Eal); [repeat split; assumption|].
    rewrite Epx in Eal. cbn beta iota in Eal. change (1 =? 1) with true in Eal. cbn iota in Eal. cbn [sk_out app] in B.
    assert (Eout : alone_out g e h = response_head (hg_reason g) h0 ++ body) by (unfold alone_out; rewrite Eal; exact B).
    split.
    + destruct Hr as (Q1 & Q2 & Q3 & tg & m & fs & c & Q4 & Q5). split; [split; [exact Q1|split; [exact Q2|lia]]|]. split; [|rewrite Eal; reflexivity].
      unfold accepts_upload. destruct (hg_req g h) as [n [[tg' m'] fs']]. cbn [snd] in Q4. injection Q4 as -> -> ->. rewrite Q5. cbn [snd].
      intros (m0 & f & B1 & B2 & _). destruct X1 as (m1 & C1 & C2). congruence.
    + intros ms rest' l Hl. rewrite Eout, <- app_assoc.
      eapply (an_cons _ _ _ (decs st) (hg_reason g st) (rsp_fields h0) (body ++ rest') st body); [|apply decs_ok; lia| |exact Hl].
      * rewrite response_head_message; [reflexivity|cbn; lia|exact Hre|exact Hwf].
      * destruct (rsp_cl h0 eq_refl ltac:(cbn; lia) Hcl) as (V1 & V2).
        apply (fr_length _ _ _ body rest' (decs (zlen body))); try assumption.
        -- rewrite rsp_te. exact Hte.
        -- apply decs_ok. lia.
  - destruct Hx as (X1 & X2 & X3 & X4 & X5 & X6).
    destruct (proxy_start (hg_reason g) (hg_rsp g) (mkpq (rq_method r) (rq_url r) (rq_host r) (rq_headers r)) (he_upin e) (he_upout e) (mksk [] None 0) head parsed _ wire Hh Hm X5 X6 Hlib Hpa X4 eq_refl) as (up1 & U1 & U2 & Epx).
    unfold rsp_of_lib in Epx. cbn [ri_status ri_cl ri_chunked ri_headers] in Epx.
    set (h1 := mkhr st true (s32 len) true hd) in *. set (h0 := mkhr st false (s32 len) true hd) in *.
    destruct (relay_chunked (S (S (length wire))) (hg_reason g) (hb_new true (s32 len)) up1 h1
       (mksk ([] ++ response_head (hg_reason g) h0) None 0) body rest) as (up2 & s2 & out & ER & A & B & C); try reflexivity.
    { split; [reflexivity|]. split; [reflexivity|]. split; [exact U2|]. left. rewrite U1. auto. }
    { enough (zlen body <= zlen wire) by (unfold zlen in *; lia). clear -Hch. induction Hch; rewrite ?zlen_app in *.
      - change (zlen (@nil Z)) with 0. pose proof (zlen_nonneg sz). pose proof (zlen_nonneg rest). change (zlen [13; 10]) with 2. lia.
      - pose proof (zlen_nonneg sz). change (zlen [13; 10]) with 2. lia. }
    cbn [sk_out sk_err] in Epx. rewrite ER in Epx. rewrite Z.eqb_refl in Epx.
    destruct (alone_proxy g e h r (head ++ wire) Hr) as (addr & port & Eal); [repeat split; assumption|].
    rewrite Epx in Eal. cbn beta iota in Eal. change (1 =? 1) with true in Eal. cbn iota in Eal. cbn [sk_out app] in B.
    assert (Eout : alone_out g e h = response_head (hg_reason g) h0 ++ out) by (unfold alone_out; rewrite Eal; exact B).
    split.
    + destruct Hr as (Q1 & Q2 & Q3 & tg & m & fs & c & Q4 & Q5). split; [split; [exact Q1|split; [exact Q2|lia]]|]. split; [|rewrite Eal; reflexivity].
      unfold accepts_upload. destruct (hg_req g h) as [n [[tg' m'] fs']]. cbn [snd] in Q4. injection Q4 as -> -> ->. rewrite Q5. cbn [snd].
      intros (m0 & f & B1 & B2 & _). destruct X1 as (m1 & C1 & C2). congruence.
    + intros ms rest' l Hl. rewrite Eout, <- app_assoc.
      eapply (an_cons _ _ _ (decs st) (hg_reason g st) (rsp_fields h0) (out ++ rest') st body); [|apply decs_ok; lia| |exact Hl].
      * rewrite response_head_message; [reflexivity|cbn; lia|exact Hre|exact Hwf].
      * assert (Hlast : exists vs, str "chunked" :: field_values (str "transfer-encoding") hd = vs ++ [str "chunked"]).
        { clear -Hte. destruct (field_values (str "transfer-encoding") hd) as [|v l] using rev_ind; [exists []; reflexivity|].
          apply Forall_app in Hte as [_ Hv]. inversion_clear Hv as [|? ? E]. subst v. exists (str "chunked" :: l). reflexivity. }
        destruct Hlast as (vs & Hvs).
        apply (fr_chunked _ _ _ _ body rest' vs); [assumption| |apply C].
        rewrite rsp_te. exact Hvs.
Qed.

(** ** The client's reading is unambiguous *)
Lemma dec_number_fun ds a : dec_number ds a -> forall b, dec_number ds b -> a = b.
Proof.
  induction 1 as [c Hc|l n c Hl IH Hc]; intros b Hb; inversion Hb as [c' Hc' E1 E2|l' n' c' Hl' Hc' E1 E2]; subst.
  - reflexivity.
  - exfalso. destruct l'; [inversion Hl'; destruct l; discriminate|]. destruct l'; discriminate.
  - exfalso. destruct l; [inversion Hl; destruct l; discriminate|]. destruct l; discriminate.
  - apply app_inj_tail in E1 as [-> ->]. rewrite (IH _ Hl'). reflexivity.
Qed.
Lemma status_line_fun ds rs ds' rs' a a' : str "HTTP/1.1 " ++ ds ++ str " " ++ rs = str "HTTP/1.1 " ++ ds' ++ str " " ++ rs' ->
  dec_number ds a -> dec_number ds' a' -> ds = ds'.
Proof.
  intros E H H'. apply app_inv_head in E. apply dec_number_chars in H. apply dec_number_chars in H'. revert ds' H' E.
  induction H as [|c ds Hc _ IH]; intros ds' H' E; destruct H' as [|c' ds' Hc' H']; cbn [app] in E.
  - reflexivity.
  - change (str " ") with [32] in E. cbn [app] in E. injection E as E _. lia.
  - change (str " ") with [32] in E. cbn [app] in E. injection E as E _. lia.
  - injection E as -> E. f_equal. apply IH; assumption.
Qed.
Lemma delimited_fun m st fs s b r b' r' : delimited m st fs s b r -> delimited m st fs s b' r' -> b = b' /\ r = r'.
Proof.
  intros H H'. destruct H as [s Hb|s b r vs Hb Ht Hc|b r ds Hb Ht Hn HF Hd|s Hb Ht Hl].
  - destruct H'; [auto|contradiction..].
  - inversion H' as [? Hb'|? ? ? vs' Hb' Ht' Hc'|? ? ds' Hb' Ht' Hn' HF' Hd'|? Hb' Ht' Hl']; subst; try contradiction.
    + destruct (chunked_unique _ _ _ Hc _ _ Hc'). auto.
    + rewrite Ht in Ht'. destruct vs; discriminate.
    + rewrite Ht in Ht'. destruct vs; discriminate.
  - inversion H' as [? Hb'|? ? ? vs' Hb' Ht' Hc'|? ? ds' Hb' Ht' Hn' HF' Hd' E|? Hb' Ht' Hl']; subst; try contradiction.
    + rewrite Ht in Ht'. destruct vs'; discriminate.
    + destruct (field_values (str "content-length") fs) as [|v l]; [contradiction|]. inversion HF; inversion HF'; subst.
      apply app_len_inv in E; [|eapply dec_number_fun; eassumption]. destruct E; auto.
  - inversion H' as [? Hb'|? ? ? vs' Hb' Ht' Hc'|? ? ds' Hb' Ht' Hn' HF' Hd' E|? Hb' Ht' Hl']; subst; try contradiction; auto.
    rewrite Ht in Ht'. destruct vs'; discriminate.
Qed.

(** ** The end of a connection *)
Lemma conn_eof g envs t ctx : t_stream t = [] -> nonempty_chunks (t_chunks t) -> t_err t <> 0 ->
  exists s, http_conn 1 g envs (mkcs t ctx (mksk [] None 0) [] []) = (Some (Ok (- Z.abs (t_err t))), s) /\
    sk_out (cs_out s) = [] /\ cs_up s = [] /\ cs_pub s = [].
Proof.
  intros Hst Hne He. destruct t as [cs er]. unfold t_stream in Hst. cbn [t_chunks t_err] in *.
  destruct cs as [|c cs]; [|inversion_clear Hne; destruct c; [contradiction|discriminate]].
  cbn [http_conn]. unfold http_turn. cbn [wchain]. unfold http_parse. cbn [cs_in].
  assert (R : read_head (mktr [] er) MAX_HEADER = (Err (- Z.abs er), mktr [] er)).
  { unfold read_head. cbn [head_loop]. change (zlen (@nil Z)) with 0. change (MAX_HEADER - 0 <? 4) with false. cbn iota.
    unfold read_fully. change (Z.to_nat 4) with 4%nat. cbn [read_fully_loop]. change (zlen (@nil Z)) with 0. unfold t_read. cbn [t_chunks t_err].
    change (4 - 0 <=? 0) with false. cbn iota. destruct (0 <? er) eqn:E; repeat f_equal; lia. }
  rewrite R. unfold PHASE_NO_CONTINUE, PHASE_CONTINUE.
  destruct (- Z.abs er =? 1) eqn:E1; [lia|]. destruct (- Z.abs er =? 0) eqn:E2; [lia|]. rewrite E2.
  eexists. split; [reflexivity|]. auto.
Qed.
Lemma outs_of_app g : forall a envs b, outs_of g envs (a ++ b) = outs_of g envs a ++ outs_of g (fun k => envs (length a + k)%nat) b.
Proof.
  induction a as [|h a IH]; intros envs b; cbn [app outs_of length Nat.add]; [reflexivity|]. rewrite IH, app_assoc. reflexivity.
Qed.
Lemma ups_of_app g : forall a envs b, ups_of g envs (a ++ b) = ups_of g envs a ++ ups_of g (fun k => envs (length a + k)%nat) b.
Proof.
  induction a as [|h a IH]; intros envs b; cbn [app ups_of length Nat.add]; [reflexivity|]. rewrite IH, app_assoc. reflexivity.
Qed.
Lemma all_answered_outs g : forall l envs, all_answered g envs l ->
  all_stay_open g envs (map (fun x => fst (fst (fst x))) l) /\
  answers (map (fun x => snd (fst (fst x))) l) (outs_of g envs (map (fun x => fst (fst (fst x))) l)) (map (fun x => (snd (fst x), snd x)) l).
Proof.
  induction l as [|[[[h m] st] body] l IH]; intros envs H; [split; [exact I|constructor]|].
  destruct H as [H1 H2]. destruct (IH _ H2) as [A B]. destruct (answered_one _ _ _ _ _ _ H1) as [C D].
  split; [split; assumption|]. cbn [map fst snd outs_of]. apply D. exact B.
Qed.
Lemma read_message_nil : read_message [] = None.
Proof. reflexivity. Qed.

(** ** A stream that is not there *)
Lemma alone_missing g e h r m : request_in g h r -> find_host (hg_router g) (rq_host r) = Some m -> adapter m = AStream ->
  rq_method r <> str "POST" -> play_start (hg_outs g) m r (he_taken e) (he_edge e) = Err ERROR_STREAM_SOURCE_NOT_EXITS ->
  fst (alone g e h) = Some (Ok 0) /\ alone_out g e h = response_head (hg_reason g) (mkhr 404 false (-1) false []) /\ alone_up g e h = [].
Proof.
  intros Hr Hf Ha Hp Hs. unfold alone_out, alone_up. destruct (alone_route g e h r Hr) as (t0 & ->).
  unfold http_route. cbn [cs_ctx]. rewrite Hf, Ha. unfold serve_stream.
  destruct (eqb_list (rq_method r) (str "POST")) eqn:E; [apply eqb_list_spec in E; contradiction|].
  unfold http_stream, stream_request. rewrite E. cbn [w_taken w_edge]. rewrite Hs.
  change (ERROR_STREAM_SOURCE_NOT_EXITS =? ERROR_STREAM_PUBLISH_NOT_SUPPORT) with false. rewrite Z.eqb_refl. cbn iota.
  unfold answer. cbn [fst snd cs_out]. rewrite hr_header_none by reflexivity. cbn. auto.
Qed.
Lemma alone_refused g e h r m : request_in g h r -> find_host (hg_router g) (rq_host r) = Some m -> adapter m = AStream ->
  rq_method r = str "POST" -> publish_start (hg_ins g) m r (he_taken e) = Err ERROR_STREAM_PUBLISH_NOT_SUPPORT ->
  fst (alone g e h) = Some (Ok 0) /\ alone_out g e h = response_head (hg_reason g) (mkhr 403 false (-1) false []) /\ alone_up g e h = [].
Proof.
  intros Hr Hf Ha Hp Hs. unfold alone_out, alone_up. destruct (alone_route g e h r Hr) as (t0 & ->).
  unfold http_route. cbn [cs_ctx]. rewrite Hf, Ha. unfold serve_stream. rewrite Hp, eqb_list_refl, Hs.
  unfold http_stream, stream_request. rewrite Hp, eqb_list_refl. cbn [w_taken w_edge]. rewrite Hs. rewrite Z.eqb_refl. cbn iota.
  unfold answer. cbn [fst snd cs_out]. rewrite hr_header_none by reflexivity. cbn. auto.
Qed.
Lemma undelimited g st m ms out l' : st = 403 \/ st = 404 -> plain (hg_reason g st) -> m <> str "HEAD" ->
  (answers (m :: ms) (response_head (hg_reason g) (mkhr st false (-1) false []) ++ out) l' <-> ms = [] /\ l' = [(st, out)]).
Proof.
  intros Hs Hp Hm.
  assert (Hread : read_message (response_head (hg_reason g) (mkhr st false (-1) false []) ++ out) =
    Some (str "HTTP/1.1 " ++ decs st ++ str " " ++ hg_reason g st, [(str "Server", str "sps")], out)).
  { rewrite response_head_message; [reflexivity|cbn; lia|exact Hp|constructor]. }
  assert (Hnb : ~ bodyless m st) by (intros [B|[B|[B|B]]]; [contradiction|lia|lia|lia]).
  assert (Hd : dec_number (decs st) st) by (apply decs_ok; lia).
  assert (Hf : delimited m st [(str "Server", str "sps")] out out []) by (apply fr_close; [exact Hnb|reflexivity|reflexivity]).
  split.
  - intros H. inversion H as [|m0 ms0 s0 ds rs fs s1 st1 body rest l0 R D F A]; subst. rewrite Hread in R.
    assert (E : str "HTTP/1.1 " ++ decs st ++ str " " ++ hg_reason g st = str "HTTP/1.1 " ++ ds ++ str " " ++ rs) by congruence.
    assert (fs = [(str "Server", str "sps")]) as -> by congruence. assert (s1 = out) as -> by congruence.
    pose proof (status_line_fun _ _ _ _ _ _ E Hd D) as <-. pose proof (dec_number_fun _ _ Hd _ D) as <-.
    destruct (delimited_fun _ _ _ _ _ _ _ _ F Hf) as [-> ->].
    inversion A as [|m0 ms0 s0 ds1 rs1 fs1 s1 st1 body1 rest1 l1 R1 D1 F1 A1]; subst; [auto|]. rewrite read_message_nil in R1. discriminate.
  - intros [-> ->]. eapply an_cons; [exact Hread|exact Hd|exact Hf|constructor].
Qed.
Lemma answers_fun : forall ms s l, answers ms s l -> forall l', answers ms s l' -> l = l'.
Proof.
  induction 1 as [|m ms s ds rs fs s1 st body rest l R D F A IH]; intros l' H'.
  - inversion H'. reflexivity.
  - inversion H' as [|m0 ms0 s0 ds' rs' fs' s1' st' body' rest' l0 R' D' F' A']; subst. rewrite R in R'.
    assert (E : str "HTTP/1.1 " ++ ds ++ str " " ++ rs = str "HTTP/1.1 " ++ ds' ++ str " " ++ rs') by congruence.
    assert (fs' = fs) as -> by congruence. assert (s1' = s1) as -> by congruence.
    pose proof (status_line_fun _ _ _ _ _ _ E D D') as <-. pose proof (dec_number_fun _ _ D _ D') as <-.
    destruct (delimited_fun _ _ _ _ _ _ _ _ F F') as [-> ->]. f_equal. apply IH. exact A'.
Qed.
Lemma request_head_ok g h r : request_in g h r -> head_ok g h.
Proof. intros (A & B & C & _). split; [exact A|]. split; [exact B|]. lia. Qed.
Lemma request_no_upload g e h r : request_in g h r ->
  (rq_method r <> str "POST" \/ (forall m, find_host (hg_router g) (rq_host r) = Some m -> adapter m <> AStream \/ (forall f, publish_start (hg_ins g) m r (he_taken e) <> Ok f))) -> ~ accepts_upload g e h.
Proof.
  intros (Q1 & Q2 & Q3 & tg & m & fs & c & Q4 & Q5) H. unfold accepts_upload. destruct (hg_req g h) as [n [[tg' m'] fs']].
  cbn [snd] in Q4. injection Q4 as -> -> ->. rewrite Q5. cbn [snd]. intros (m0 & f & B1 & B2 & B3 & B4).
  destruct H as [H|H]; [contradiction|]. destruct (H m0 B1) as [H1|H1]; [contradiction|]. exact (H1 f B4).
Qed.
(** A response of which only the head comes. *)
Lemma alone_head_only g e h r head parsed st cl hd : request_in g h r -> proxied_to g e r head -> is_head head -> zlen head <= MAX_HEADER ->
  hg_rsp g head = (parsed, rsp_of_lib st cl false hd) -> 0 < parsed -> s32 cl <> 0 -> t_err (he_upin e) <> ERROR_HTTP_RES_EOF ->
  fst (alone g e h) = Some (Ok (if t_err (he_upin e) =? 1 then 0 else t_err (he_upin e))) /\
  alone_out g e h = response_head (hg_reason g) (mkhr st false (s32 cl) false hd).
Proof.
  intros Hr Hx Hh Hm Hlib Hpa Hcl Hte. pose proof Hx as (X1 & X2 & X3 & X4 & X5 & X6). rewrite <- (app_nil_r head) in X6.
  destruct (read_head_ok head [] (he_upin e) MAX_HEADER (is_head_shape head Hh) X5 X6 Hm) as (t1 & R1 & A1 & A2 & A3).
  destruct (alone_proxy g e h r head Hr Hx) as (addr & port & Eal).
  assert (Hq : http_request (rq_method r) (rq_url r) (rq_host r) [] (rq_headers r) <> []) by (unfold http_request; destruct (rq_method r); discriminate).
  assert (Epx : exists up2 ups, proxy (hg_reason g) (hg_rsp g) (mkpq (rq_method r) (rq_url r) (rq_host r) (rq_headers r)) (he_upin e) (he_upout e) (mksk [] None 0) =
    (Err (t_err (he_upin e)), up2, ups, mksk (response_head (hg_reason g) (mkhr st false (s32 cl) false hd)) None 0)).
  { unfold proxy. cbn [pq_method pq_url pq_host pq_headers]. rewrite sk_write_none by assumption. rewrite R1, Hlib.
    destruct (parsed <? 0) eqn:E1; [lia|]. destruct (parsed =? 0) eqn:E2; [lia|].
    unfold rsp_of_lib. cbn [ri_status ri_cl ri_chunked ri_headers]. unfold hr_init.
    rewrite hr_header_none by reflexivity. cbn [hr_status hr_cl hr_chunked hr_headers sk_out sk_err app].
    destruct t1 as [cs er]. unfold t_stream in A1. cbn [t_chunks t_err] in *.
    destruct cs as [|c cs]; [|inversion_clear A2; destruct c; [contradiction|discriminate]].
    cbn [relay concat length]. unfold up_read, hb_read, hb_new. cbn [hb_eof hb_chunked hb_cl hb_nread t_chunks].
    assert (Hu : forall z, 0 <= z < 2 ^ 31 -> u64 (z - 0) = z) by (intros z Hz; unfold u64; rewrite Z.mod_small; lia).
    assert (Hs : - 2 ^ 31 <= s32 cl < 2 ^ 31) by (unfold s32; pose proof (Z.mod_pos_bound (cl + 2 ^ 31) (2 ^ 32)); lia).
    assert (Ht : forall n, 0 < n -> t_read (mktr [] er) n = (Err er, mktr [] er)).
    { intros n Hn. unfold t_read. destruct (n <=? 0) eqn:En; [lia|reflexivity]. }
    rewrite Ht. 2:{ destruct (0 <=? s32 cl) eqn:E; [|lia]. rewrite Hu by lia. lia. }
    destruct (er =? ERROR_HTTP_RES_EOF) eqn:E3; [lia|]. subst er. eauto. }
  destruct Epx as (up2 & ups & Epx). rewrite Epx in Eal. unfold alone_out. rewrite Eal. auto.
Qed.
(** An upstream that cannot be reached, or that does not answer. *)
Lemma alone_unreachable g e h r m : request_in g h r -> find_host (hg_router g) (rq_host r) = Some m -> adapter m = AProxy -> rq_schema r = str "http" ->
  he_conn e = false -> fst (alone g e h) = Some (Ok ERROR_HTTP_SOCKET_CONNECT) /\ alone_out g e h = [].
Proof.
  intros Hr Hf Ha Hs Hc. unfold alone_out. destruct (alone_route g e h r Hr) as (t0 & ->).
  unfold http_route. cbn [cs_ctx]. rewrite Hf, Ha. unfold serve_proxy. rewrite Hs. change (up_kind (str "http")) with (Some UHttp). cbn iota.
  destruct (proxy_info m 80) as [ip port]. rewrite Hc. cbn. auto.
Qed.
