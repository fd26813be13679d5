(** FLV uploads over HTTP and HTTPS: theorems. *)
From Verif Require Import Base M_IO S_IO M_Text M_Http S_Http L_Http L_Http2 L_Http3 P_Http M_Tls S_Tls L_Tls P_Tls M_Https S_Https L_Https P_Https M_Packet M_Flv S_Flv L_Flv P_Flv M_Upload S_Upload L_Upload.

(** C145: whatever a program does with what it reads, on the body of a request it
    ends as it would on a plain connection that brings the body, without its
    framing, in some division, and then the end-of-body error.  If the
    connection breaks off, then as on one that brings an initial part of the
    body and then the error of the connection. *)
Theorem body_framing_transparent : forall A (p : prog A) ch cl t miss body more, reads_body p -> nonempty_chunks (t_chunks t) ->
  framed (ch, cl) (t_stream t ++ miss) body more ->
  exists cs err, nonempty_chunks cs /\ fst (run_plain (over_body p (hb_new ch cl)) t) = Ok (fst (run_plain p (mktr cs err))) /\
    ((err = ERROR_HTTP_RES_EOF /\ concat cs = body) \/ (err = t_err t /\ miss <> [] /\ exists tl, body = concat cs ++ tl)).
Proof.
  intros A p ch cl t miss body more Hp Hn Hf. rewrite <- plus_stream in Hf.
  exact (over_body_sim p Hp _ t body more miss Hn (or_introl (framed_live _ _ _ _ _ Hf (plus_ne _ miss Hn)))).
Qed.
(** A body without framing is the rest of the connection. *)
Theorem body_unframed_transparent : forall A (p : prog A) cl t, cl < 0 -> fst (run_plain (over_body p (hb_new false cl)) t) = Ok (fst (run_plain p t)).
Proof. intros A p cl t H. exact (over_body_unframed p 0 0 t cl H). Qed.
(** The demuxer of M_Flv.v is such a program; here it meets a body in two chunks, and one cut short. *)
Definition ex_flv : list Z := [0x46; 0x4C; 0x56; 1; 5; 0; 0; 0; 9] ++ flv_layout 0 flv_ex_packets.
Definition ex_chunks : list Z := enc (take 20 ex_flv) ++ enc (drop 20 ex_flv) ++ enc [].
Example body_framing_case : reads_body (flv_decode_prog 9 (repeat 0 64)) /\
  (forall t, fst (run_plain (flv_decode_prog 9 (repeat 0 64)) t) = Ok (fst (snd (flv_demux 9 (br_new (repeat 0 64) t))))) /\
  framed (true, -1) ex_chunks ex_flv [] /\
  fst (run_plain (over_body (flv_decode_prog 9 (repeat 0 64)) (hb_new true (-1))) (mktr [take 33 ex_chunks; drop 33 ex_chunks] 1004)) = Ok (Ok (flv_ex_packets, Err ERROR_HTTP_RES_EOF)) /\
  fst (run_plain (over_body (flv_decode_prog 9 (repeat 0 64)) (hb_new true (-1))) (mktr [take 20 ex_chunks; take 50 (drop 20 ex_chunks)] 1004)) = Ok (Ok (take 2 flv_ex_packets, Err 1004)).
Proof.
  split; [apply flv_decode_okb; reflexivity|]. split; [intros; apply flv_decode_same|]. split.
  - assert (K : chunked (flat_map enc [take 20 ex_flv; drop 20 ex_flv] ++ enc [] ++ []) (concat [take 20 ex_flv; drop 20 ex_flv] ++ []) []).
    { apply enc_chunked; [|apply enc_nil_chunked]. constructor; [split; [discriminate|reflexivity]|constructor; [split; [discriminate|reflexivity]|constructor]]. }
    exact K.
  - split; vm_compute; reflexivity.
Qed.
Print Assumptions body_framing_transparent.
Print Assumptions body_unframed_transparent.

(** C146: an upload publishes the packets of its body: however the client frames
    the body and the network divides it, the packets that reach the stream are
    those of the FLV text, in order, and then the end of the body. *)
Theorem http_flv_upload_exact : forall framing fuel fill t h wire body more fh s,
  nonempty_chunks (t_chunks t) -> is_head h -> zlen h <= MAX_HEADER -> t_stream t = h ++ wire ->
  framed (framing h) wire body more -> body = fh ++ s -> zlen fh = 9 -> take 3 fh = [0x46; 0x4C; 0x56] -> bytes s -> 15 <= zlen fill < 2 ^ 62 ->
  exists x, fst (run_plain (upload_prog framing fuel fill) t) = Ok (Ok (h, fst (spec_flv_all fuel (zlen fill) ERROR_HTTP_RES_EOF s), x)) /\
    flv_end_ok x (snd (spec_flv_all fuel (zlen fill) ERROR_HTTP_RES_EOF s)).
Proof.
  intros framing fuel fill t h wire body more fh s Hn Hh Hm Hst Hf Hb H9 H3 Hy Hc.
  destruct (upload_plain framing fuel fill t [] h wire body more fh s Hn Hh Hm) as (ps & x & qs & A & B & C); try assumption.
  { rewrite Hst, zlen_app. pose proof (zlen_nonneg wire). lia. } { rewrite app_nil_r. exact Hst. }
  destruct (C eq_refl) as (-> & D). rewrite app_nil_r in B. rewrite B. eauto.
Qed.
(** In particular what an encoder sent is what viewers get. *)
Theorem http_flv_upload_published : forall framing fill t h wire more ps,
  nonempty_chunks (t_chunks t) -> is_head h -> zlen h <= MAX_HEADER -> t_stream t = h ++ wire ->
  15 <= zlen fill < 2 ^ 24 -> Forall (flv_transportable (zlen fill)) ps ->
  framed (framing h) wire ([0x46; 0x4C; 0x56; 1; 5; 0; 0; 0; 9] ++ flv_layout 0 ps) more ->
  fst (run_plain (upload_prog framing (S (length ps)) fill) t) = Ok (Ok (h, ps, Err ERROR_HTTP_RES_EOF)).
Proof.
  intros framing fill t h wire more ps Hn Hh Hm Hst Hc HF Hf.
  destruct (http_flv_upload_exact framing (S (length ps)) fill t h wire _ more _ (flv_layout 0 ps) Hn Hh Hm Hst Hf eq_refl eq_refl eq_refl (flv_layout_bytes _ _ HF 0) ltac:(lia)) as (x & A & B).
  rewrite (spec_flv_all_layout (zlen fill) ERROR_HTTP_RES_EOF ps ltac:(lia) HF 0) in A, B. cbn [fst snd flv_end_ok] in A, B. subst x. exact A.
Qed.
Definition ex_post : list Z := str "POST /live/a.flv HTTP/1.1" ++ [13; 10] ++ str "Host: x" ++ [13; 10] ++ str "Transfer-Encoding: chunked" ++ [13; 10; 13; 10].
Example http_flv_upload_case : is_head ex_post /\
  fst (run_plain (upload_prog (fun _ => (true, -1)) 9 (repeat 0 64)) (mktr [take 10 ex_post; drop 10 ex_post ++ take 3 ex_chunks; drop 3 ex_chunks ++ str "GET"] 1004))
  = Ok (Ok (ex_post, flv_ex_packets, Err ERROR_HTTP_RES_EOF)).
Proof.
  split; [|vm_compute; reflexivity]. exists [str "POST /live/a.flv HTTP/1.1"; str "Host: x"; str "Transfer-Encoding: chunked"]. split; [discriminate|]. split; [|reflexivity].
  constructor; [|constructor; [|constructor; [|constructor]]]; (split; [discriminate|apply plain_lit; reflexivity]).
Qed.
Print Assumptions http_flv_upload_exact.
Print Assumptions http_flv_upload_published.

(** C147: if the connection of an upload breaks off anywhere in the body, what was
    published is an initial segment of the packets of the whole upload. *)
Theorem http_flv_upload_cut : forall framing fuel fill t miss h wire body more fh s,
  nonempty_chunks (t_chunks t) -> is_head h -> zlen h <= MAX_HEADER -> zlen h <= zlen (t_stream t) -> t_stream t ++ miss = h ++ wire ->
  framed (framing h) wire body more -> body = fh ++ s -> zlen fh = 9 -> take 3 fh = [0x46; 0x4C; 0x56] -> bytes s -> 15 <= zlen fill < 2 ^ 62 ->
  exists ps x qs, fst (run_plain (upload_prog framing fuel fill) t) = Ok (Ok (h, ps, x)) /\
    fst (spec_flv_all fuel (zlen fill) ERROR_HTTP_RES_EOF s) = ps ++ qs.
Proof.
  intros framing fuel fill t miss h wire body more fh s Hn Hh Hm Hl Hst Hf Hb H9 H3 Hy Hc.
  destruct (upload_plain framing fuel fill t miss h wire body more fh s Hn Hh Hm Hl Hst Hf Hb H9 H3 Hy Hc) as (ps & x & qs & A & B & _). eauto.
Qed.
Example http_flv_upload_cut_case :
  fst (run_plain (upload_prog (fun _ => (true, -1)) 9 (repeat 0 64)) (mktr [ex_post ++ take 70 ex_chunks] 1004)) = Ok (Ok (ex_post, take 2 flv_ex_packets, Err 1004)).
Proof. vm_compute. reflexivity. Qed.
Print Assumptions http_flv_upload_cut.

(** C148: the same over TLS. *)
Theorem https_flv_upload_exact : forall E (g : engine E) R1 R2 Dn ch f1 ck f2 (gr : reader E) R dec framing fuel n fill e ds1 ds2 rest err i h wire body more fh s,
  two_flights g R1 R2 Dn ch f1 ck f2 -> ch <> [] -> f1 <> [] -> ck <> [] -> f2 <> [] -> R1 e [] [] ->
  decrypts gr R dec -> (forall e', Dn e' -> R e' [] [] []) -> ~ lib_fails gr ->
  pieces_of ds1 ch -> pieces_of ds2 ck -> nonempty_chunks rest ->
  (length ch < fuel)%nat -> (length ck < fuel)%nat -> (length (concat rest) < fuel)%nat ->
  dec (concat rest) = h ++ wire -> is_head h -> zlen h <= MAX_HEADER -> framed (framing h) wire body more ->
  body = fh ++ s -> zlen fh = 9 -> take 3 fh = [0x46; 0x4C; 0x56] -> bytes s -> 15 <= zlen fill < 2 ^ 62 ->
  exists x, tls_serve fuel g gr KwAll KwAll (Ok tt) (mktls e [] [] (mktr (ds1 ++ ds2 ++ rest) err) [] i) (upload_prog framing n fill)
    = Ok (Ok (h, fst (spec_flv_all n (zlen fill) ERROR_HTTP_RES_EOF s), x)) /\
    flv_end_ok x (snd (spec_flv_all n (zlen fill) ERROR_HTTP_RES_EOF s)).
Proof.
  intros E g R1 R2 Dn ch f1 ck f2 gr R dec framing fuel n fill e ds1 ds2 rest err i h wire body more fh s T N1 N2 N3 N4 HR1 D HD HNF P1 P2 HF L1 L2 L3 Hdec Hh Hm Hfr Hb H9 H3 Hy Hc.
  destruct (tls_accept_any_division E g R1 R2 Dn ch f1 ck f2 fuel e ds1 ds2 rest err i T N1 N2 N3 N4 HR1 P1 P2 L1 L2) as (e' & He & Hacc).
  unfold tls_serve. rewrite Hacc. cbn [tl_e tl_r tl_io].
  assert (Hhead : exists st1, run_tls fuel gr (head_prog MAX_HEADER) (e', [], mktr rest err) = (Ok (Ok h), st1)).
  { destruct (tls_transparent _ _ gr R dec fuel (head_prog MAX_HEADER) e' (mktr rest err) D (HD _ He) (okp_reads _ _ _ (head_okp _)) HF L3) as (cs & er & A1 & A2 & [(A3 & A4)|(_ & A4 & _)]); [|contradiction].
    change (t_stream (mktr rest err)) with (concat rest) in A4. rewrite Hdec in A4.
    destruct (head_reader_exact h wire (mktr cs er) MAX_HEADER Hh A1 A4 Hm) as (t1 & B1 & _). rewrite head_prog_run, B1 in A2. cbn [fst] in A2.
    destruct (run_tls fuel gr (head_prog MAX_HEADER) (e', [], mktr rest err)) as [x st1]. cbn in A2. subst x. eauto. }
  destruct Hhead as (st1 & Hhead).
  set (fr' := fun x => if eqb_list x h then framing h else (true, 0)).
  assert (Hfr' : framing h = fr' h) by (unfold fr'; rewrite eqb_list_refl; reflexivity).
  rewrite (upload_prog_head gr fuel framing fr' n fill h _ st1 Hhead Hfr').
  assert (Hok : reads_ok (upload_prog fr' n fill)).
  { apply upload_okp; [lia|]. intros x. unfold fr'. destruct (eqb_list x h); [|right; left; cbn; lia].
    unfold framed in Hfr. destruct (framing h) as [c cl]. cbn [fst snd] in *. destruct c; [right; left; cbn; lia|].
    right; right. cbn. split; [reflexivity|]. right. lia. }
  destruct (tls_transparent _ _ gr R dec fuel (upload_prog fr' n fill) e' (mktr rest err) D (HD _ He) Hok HF L3) as (cs & er & A1 & A2 & [(A3 & A4)|(_ & A4 & _)]); [|contradiction].
  change (t_stream (mktr rest err)) with (concat rest) in A4. rewrite Hdec in A4. rewrite A2.
  apply (http_flv_upload_exact fr' n fill (mktr cs er) h wire body more fh s); try assumption. rewrite <- Hfr'. exact Hfr.
Qed.
Example https_flv_upload_case :
  tls_serve 400 toy toy_rd2 KwAll KwAll (Ok tt)
    (mktls 0%nat [] [] (mktr ([[1]; [2]] ++ [[4; 5]] ++ [map (Z.lxor 1) (ex_post ++ take 30 ex_chunks); map (Z.lxor 1) (drop 30 ex_chunks)]) 1004) [] false)
    (upload_prog (fun _ => (true, -1)) 9 (repeat 0 64))
  = Ok (Ok (ex_post, flv_ex_packets, Err ERROR_HTTP_RES_EOF)).
Proof. vm_compute. reflexivity. Qed.
Print Assumptions https_flv_upload_exact.
