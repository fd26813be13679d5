(** Edges and chains of servers: theorems. *)
From Verif Require Import Base M_IO S_IO M_Text M_Packet S_Cache M_Flv S_Flv L_Flv P_Flv M_Live S_Live L_Live L_Live2 M_Conf M_Url S_Url L_Url P_Url M_Host M_Http S_Http L_Http L_Http2 L_Http3 P_Http
  M_Https S_Https L_Https M_Upload S_Upload L_Upload P_Upload M_Stream S_Stream L_Stream P_Stream M_HttpConn S_HttpConn L_HttpConn M_Edge S_Edge L_Edge.

(** C156: the stream an edge makes is the body of the upstream's answer: however
    the upstream frames it, in chunks, by length or up to the end of the
    connection, and however the network divides it, the packets the edge
    publishes are those of the FLV text, in order. *)
Theorem edge_publishes_answer : forall lib fmts decode q t o h wire n ri f fuel fill body fh s o1,
  nonempty_chunks (t_chunks t) -> is_head h -> zlen h <= MAX_HEADER -> t_stream t = h ++ wire -> lib h = (n, ri) -> 0 < n -> ri_status ri = 200 ->
  fmt_find fmts (rq_ext q) = Ok (Some f) -> decode f = flv_decode_prog fuel fill -> answer_body (ri_chunked ri) (ri_cl ri) wire body ->
  body = fh ++ s -> zlen fh = 9 -> take 3 fh = [0x46; 0x4C; 0x56] -> bytes s -> 15 <= zlen fill < 2 ^ 62 -> sk_write o (pull_text q) = (Ok tt, o1) ->
  let e := body_end (ri_chunked ri) (ri_cl ri) (t_err t) in
  exists x, edge_http lib fmts decode q true t o = (match x with Ok _ => Ok 0 | Err e => Ok e | UB => UB | Fuel => Fuel end, Some (fst (spec_flv_all fuel (zlen fill) e s)), o1) /\
    flv_end_ok x (snd (spec_flv_all fuel (zlen fill) e s)).
Proof. exact edge_whole. Qed.
(** In particular a file of packets is published as these packets. *)
Theorem edge_publishes_file : forall lib fmts decode q t o h wire n ri f fill ps o1,
  nonempty_chunks (t_chunks t) -> is_head h -> zlen h <= MAX_HEADER -> t_stream t = h ++ wire -> lib h = (n, ri) -> 0 < n -> ri_status ri = 200 ->
  fmt_find fmts (rq_ext q) = Ok (Some f) -> decode f = flv_decode_prog (S (length ps)) fill ->
  answer_body (ri_chunked ri) (ri_cl ri) wire ([0x46; 0x4C; 0x56; 1; 5; 0; 0; 0; 9] ++ flv_layout 0 ps) ->
  Forall (flv_transportable (zlen fill)) ps -> 15 <= zlen fill < 2 ^ 24 -> sk_write o (pull_text q) = (Ok tt, o1) ->
  edge_http lib fmts decode q true t o = (Ok (body_end (ri_chunked ri) (ri_cl ri) (t_err t)), Some ps, o1).
Proof.
  intros lib fmts decode q t o h wire n ri f fill ps o1 Hn Hh Hm Hst Hl Hp H2 Hf Hd Hb HF Hc Hw.
  destruct (edge_whole lib fmts decode q t o h wire n ri f (S (length ps)) fill _ _ _ o1 Hn Hh Hm Hst Hl Hp H2 Hf Hd Hb eq_refl eq_refl eq_refl (flv_layout_bytes _ _ HF 0) ltac:(lia) Hw) as (x & A & B).
  rewrite (spec_flv_all_layout (zlen fill) _ ps ltac:(lia) HF 0) in A, B. cbn [fst snd flv_end_ok] in A, B. subst x. exact A.
Qed.
(** If the answer breaks off anywhere, what has been published, if anything, is
    where the whole starts. *)
Theorem edge_cut_answer : forall lib fmts decode q t o miss h wire n ri f fuel fill body fh s x ps o1 e',
  nonempty_chunks (t_chunks t) -> is_head h -> zlen h <= MAX_HEADER -> t_stream t ++ miss = h ++ wire -> lib h = (n, ri) ->
  fmt_find fmts (rq_ext q) = Ok (Some f) -> decode f = flv_decode_prog fuel fill -> answer_body (ri_chunked ri) (ri_cl ri) wire body ->
  body = fh ++ s -> zlen fh = 9 -> take 3 fh = [0x46; 0x4C; 0x56] -> bytes s -> 15 <= zlen fill < 2 ^ 62 ->
  edge_http lib fmts decode q true t o = (x, Some ps, o1) -> initial ps (fst (spec_flv_all fuel (zlen fill) e' s)).
Proof. exact edge_partial. Qed.
Definition ex_q := mkrq (str "/live/x.flv") (str "GET") (str "http") 80 (str "origin") (str "/live/x.flv") (str "flv") [] [] [].
Definition ex_200 (more : list Z) : list Z := str "HTTP/1.1 200 OK" ++ [13; 10] ++ more ++ [13; 10].
Definition ex_te : list Z := ex_200 (str "Transfer-Encoding: chunked" ++ [13; 10]).
Definition ex_plain : list Z := ex_200 [].
Definition ex_lib (h : list Z) : Z * rsp_info := (zlen h, mkri 200 (-1) (eqb_list h ex_te) []).
Definition ex_dec (f : list Z) : prog (list pkt * res unit) := flv_decode_prog 9 (repeat 0 64).
Example edge_publishes_case : is_head ex_te /\
  answer_body true (-1) (ex_chunks ++ str "x") ex_flv /\ answer_body false (-1) ex_flv ex_flv /\
  edge_http ex_lib input_exts ex_dec ex_q true (mktr [take 10 ex_te; drop 10 ex_te ++ take 3 ex_chunks; drop 3 ex_chunks ++ str "x"] 1004) (mksk [] None 7) =
    (Ok ERROR_HTTP_RES_EOF, Some flv_ex_packets, mksk (pull_text ex_q) None 7) /\
  edge_http ex_lib input_exts ex_dec ex_q true (mktr [ex_plain; take 20 ex_flv; drop 20 ex_flv] 1004) (mksk [] None 7) =
    (Ok 1004, Some flv_ex_packets, mksk (pull_text ex_q) None 7) /\
  (** Cut inside the second chunk, of which nothing is published; inside a body
      without framing; inside the head. *)
  edge_http ex_lib input_exts ex_dec ex_q true (mktr [ex_te; take 20 ex_chunks; take 50 (drop 20 ex_chunks)] 1004) (mksk [] None 7) =
    (Ok 1004, Some [], mksk (pull_text ex_q) None 7) /\
  edge_http ex_lib input_exts ex_dec ex_q true (mktr [ex_plain ++ take 64 ex_flv] 1004) (mksk [] None 7) =
    (Ok 1004, Some (take 2 flv_ex_packets), mksk (pull_text ex_q) None 7) /\
  edge_http ex_lib input_exts ex_dec ex_q true (mktr [take 30 ex_te] 1004) (mksk [] None 7) = (Ok (-1004), None, mksk (pull_text ex_q) None 7).
Proof.
  split; [|split; [|split]].
  - exists [str "HTTP/1.1 200 OK"; str "Transfer-Encoding: chunked"]. split; [discriminate|]. split; [|reflexivity].
    constructor; [|constructor; [|constructor]]; (split; [discriminate|apply plain_lit; reflexivity]).
  - left. exists (str "x"). assert (K : S_Http.chunked (flat_map enc [take 20 ex_flv; drop 20 ex_flv] ++ enc [] ++ str "x") (concat [take 20 ex_flv; drop 20 ex_flv] ++ []) (str "x")).
    { apply enc_chunked; [|apply enc_nil_chunked]. constructor; [split; [discriminate|reflexivity]|constructor; [split; [discriminate|reflexivity]|constructor]]. }
    exact K.
  - right. repeat split; reflexivity.
  - repeat split; vm_compute; reflexivity.
Qed.
Print Assumptions edge_publishes_answer.
Print Assumptions edge_publishes_file.
Print Assumptions edge_cut_answer.

(** C157: the stream an edge asks for.  A host with pass_proxy "addr" or "addr:port"
    sends, for a player's path [p.e] and query, a request that an HTTP server
    reads as a play request for the stream [addr ++ p] in the format [e], with
    the player's query: the upstream finds the stream under the address the edge
    is configured with, not under the host the player named. *)
Theorem edge_names_stream : forall ulib ulib2 h r addr port p e query,
  url_lib_ok ulib -> url_lib_ok ulib2 -> rq_schema r = str "http" -> url_wf (str "http") addr port (Some (p ++ 46 :: e)) query ->
  without 46 e -> e <> [] -> e <> str "-" -> zlen (p ++ 46 :: e) < 2 ^ 64 ->
  rq_url r = (p ++ 46 :: e) ++ match query with Some q => 63 :: q | None => [] end ->
  opt_str h (str "pass_url") = [] -> (forall m, In m (cm_subs h) -> cm_type m <> str "upstream") ->
  opt_str h (str "pass_proxy") = addr ++ match port with Some p => 58 :: p | None => [] end ->
  exists q pt, edge_target ulib h r = Ok (Some (addr, pt, q)) /\ rq_ext q = e /\
    forall plib, reads_request plib (pull_text q) ->
    exists n u m fs r2, 0 < n /\ plib (pull_text q) = (n, (u, m, fs)) /\ request_of ulib2 u m fs = (Ok 0, r2) /\
      cache_key r2 = addr ++ p /\ rq_ext r2 = e /\ rq_method r2 = str "GET" /\ rq_params r2 = match query with Some q => q | None => [] end.
Proof.
  intros ulib ulib2 h r addr port p e query Hl Hl2 Hs Hwf H46 He Hd Hlen Hu Hpu Hup Hpp.
  assert (Hext : has_ext (p ++ 46 :: e) e) by (exists p; auto). rewrite <- Hs in Hwf.
  destruct (edge_pulls_same_path ulib h r addr port _ query Hl Hwf ltac:(rewrite Hs; discriminate) Hu Hpu Hup Hpp) as (q & pt & E1 & _ & _ & _ & E2 & E3 & E4 & E5 & E6 & E7 & E8).
  exists q, pt. split; [exact E1|]. split; [apply E8, Hext|]. intros plib Hp. rewrite Hs in Hwf.
  assert (Pp : forall l, Forall path_c l -> Forall (fun c => 33 <= c <= 126) l) by (intros l K; eapply Forall_impl; [|exact K]; unfold path_c; intros c Hc; lia).
  assert (Hurl : Forall (fun c => 33 <= c <= 126) (rq_url q)).
  { rewrite E5, Hu. apply Forall_app. split.
    - destruct (uw_path _ _ _ _ _ Hwf) as (p' & -> & K). constructor; [lia|apply Pp, K].
    - pose proof (uw_query _ _ _ _ _ Hwf) as K. destruct query as [x|]; [constructor; [lia|apply Pp; tauto]|constructor]. }
  assert (Hhost : Forall (fun c => 33 <= c <= 126) addr).
  { destruct (uw_host _ _ _ _ _ Hwf) as (_ & K). eapply Forall_impl; [|exact K]. unfold host_c, alpha, digit_c. intros c Hc. lia. }
  assert (Pl : forall l, Forall (fun c => 33 <= c <= 126) l -> S_Http.plain l /\ ~ In 32 l).
  { intros l K. split; [eapply Forall_impl; [|exact K]; cbn; lia|]. intros Hi. rewrite Forall_forall in K. specialize (K _ Hi). lia. }
  pose proof (read_request_ok (str "GET") (rq_url q) addr [] [] ltac:(apply plain_lit; reflexivity) ltac:(apply notin_lit; reflexivity) (proj1 (Pl _ Hurl)) (proj2 (Pl _ Hurl)) (proj1 (Pl _ Hhost)) (Forall_nil _)) as R.
  assert (Ht : pull_text q = http_request (str "GET") (rq_url q) addr [] []) by (unfold pull_text; rewrite E6, E7, E2; reflexivity).
  apply (eq_trans (f_equal read_request Ht)) in R. destruct (Hp _ _ _ _ _ R) as (n & Hn & Hlib).
  assert (Hwf2 : url_wf (str "http") addr None (Some (p ++ 46 :: e)) query).
  { destruct Hwf as [W1 W2 _ W4 W5]. constructor; auto. }
  match type of R with _ = Some (_, _, _, ?fs, _) => destruct (request_with_host ulib2 addr None (Some (p ++ 46 :: e)) query (str "GET") fs Hl2 Hwf2 ltac:(discriminate)) as (r2 & B1 & B2 & _ & B3 & B4 & _ & B5 & _) end.
  { exists [], (filter not_host [] ++ [(str "Accept", str "*/"); (str "Content-Length", decs (zlen (@nil Z)))]). rewrite app_nil_r. split; [reflexivity|intros []]. }
  eexists n, _, _, _, r2. split; [exact Hn|]. split; [exact Hlib|]. rewrite E5, Hu. split; [exact B1|]. cbn [opt_or] in B3, B4.
  assert (Bx : rq_ext r2 = e).
  { unfold request_of in B1. cbn [kv_find opt_or] in B1. change (eqb_list (str "Host") (str "Host")) with true in B1. cbv iota in B1. cbn [opt_or] in B1.
    destruct addr as [|c0 addr]; [destruct (uw_host _ _ _ _ _ Hwf); congruence|].
    match type of B1 with parse_url _ ?r0 ?full = _ => assert (F : full = url_text (str "http") (c0 :: addr) None (Some (p ++ 46 :: e)) query) by reflexivity; rewrite F in B1;
      destruct (parse_url_ok ulib2 r0 (str "http") (c0 :: addr) None (Some (p ++ 46 :: e)) query Hl2 Hwf2 eq_refl eq_refl eq_refl ltac:(discriminate)) as (pp & _ & K) end.
    rewrite K in B1. injection B1 as <-. cbn [rq_ext opt_or]. apply ext_of_has, Hext. }
  split; [|split; [exact Bx|split; [exact B5|exact B4]]]. rewrite <- B2. apply (cache_key_dot r2 p e); auto. rewrite B3. exact Hlen.
Qed.
(** A host "cdn" pulling from "origin:8080": a player asks cdn for /live/x.flv. *)
Example edge_names_case :
  let r := mkrq (str "/live/x.flv?t=1") (str "GET") (str "http") 80 (str "cdn") (str "/live/x.flv") (str "flv") (str "t=1") [] [] in
  url_wf (str "http") (str "origin") (Some (str "8080")) (Some (str "/live/x.flv")) (Some (str "t=1")) /\
  cache_key r = str "cdn/live/x" /\
  exists q, edge_target hp_url (exs_pull [(str "pass_proxy", str "origin:8080")]) r = Ok (Some (str "origin", 8080, q)) /\
    pull_text q = str "GET /live/x.flv?t=1 HTTP/1.1" ++ [13; 10] ++ str "Host: origin" ++ [13; 10] ++ str "Accept: */" ++ [13; 10] ++ str "Content-Length: 0" ++ [13; 10; 13; 10] /\
    reads_request (fun _ => (1, (str "/live/x.flv?t=1", str "GET", [(str "Host", str "origin"); (str "Accept", str "*/"); (str "Content-Length", str "0")]))) (pull_text q) /\
    exists r2, request_of hp_url (str "/live/x.flv?t=1") (str "GET") [(str "Host", str "origin"); (str "Accept", str "*/"); (str "Content-Length", str "0")] = (Ok 0, r2) /\
      cache_key r2 = str "origin/live/x".
Proof.
  cbv zeta. split; [wf_solve|]. split; [reflexivity|]. eexists. split; [vm_compute; reflexivity|]. split; [vm_compute; reflexivity|]. split.
  - intros m u v fs rest H. vm_compute in H. injection H as <- <- <- <- <-. exists 1. split; [lia|]. vm_compute. reflexivity.
  - eexists. split; [vm_compute; reflexivity|reflexivity].
Qed.
Print Assumptions edge_names_stream.

(** C158: chains of servers.  However many edges a stream passes, what a player of
    the last one gets is what a player of the first server could have got who
    came at some moment: the snapshot of that moment and everything published
    since, so far.  No packet is lost in between, repeated, changed or out of
    order, wherever connections break off or writes fail. *)
Theorem cluster_transparent : forall cap n ps ds, 15 <= cap < 2 ^ 24 -> Forall (flv_transportable cap) ps -> cluster cap n ps ds -> view ps (concat ds).
Proof. exact cluster_view. Qed.
(** The file the last player downloads is decoded as these packets. *)
Theorem cluster_player_file : forall cap n ps ds reason ins outs h r e sk, 15 <= cap < 2 ^ 24 -> Forall (flv_transportable cap) ps -> cluster cap n ps ds ->
  rq_method r <> str "POST" -> w_taken e (cache_key r) = true -> fmt_find outs (rq_ext r) = Ok (Some (str "flv")) -> w_dumps e = ds -> ~ In [] ds ->
  sk_room sk = None -> sk_err sk <> ERROR_STREAM_PUBLISH_NOT_SUPPORT -> sk_err sk <> ERROR_STREAM_SOURCE_NOT_EXITS -> S_Http.plain (reason 200) ->
  exists sk1 head file, http_stream reason ins outs h r e sk = (None, sk1) /\ sk_out sk1 = sk_out sk ++ head ++ file /\
    read_message (head ++ file) = Some (str "HTTP/1.1 200 " ++ reason 200, [(str "Server", str "sps")], file) /\
    (forall fill t, cap <= zlen fill < 2 ^ 24 -> nonempty_chunks (t_chunks t) -> t_stream t = file ->
       exists hp r1, flv_demux (S (length (concat ds))) (br_new fill t) = (Ok hp, (concat ds, Err (t_err t), r1))) /\
    view ps (concat ds).
Proof.
  intros cap n ps ds reason ins outs h r e sk Hc HF Hcl Hm Ht Hf Hd Hne Hroom He1 He2 Hre. pose proof (cluster_view _ _ _ _ Hc HF Hcl) as Hv.
  pose proof (view_forall _ _ _ Hv HF) as HF'. assert (Hu : until_empty ds = ds).
  { clear -Hne. induction ds as [|[|p d] l IH]; [reflexivity|destruct Hne; left; reflexivity|]. cbn [until_empty]. rewrite IH; [reflexivity|]. intros Hi. apply Hne. right. exact Hi. }
  destruct (http_player_ends reason ins outs h r e sk Hm Ht Hf) as (ret & sk1 & sent & A1 & A2 & A3); [|exact He1|exact He2|].
  { rewrite Hd, Hu. eapply Forall_impl; [|exact HF']. intros p Hpp. eapply transportable_fits; [|exact Hpp]. lia. }
  rewrite Hd, Hu in A3. destruct A3 as [(-> & _ & ->)|[(_ & K & _)|(_ & K & _)]]; [|contradiction|congruence].
  exists sk1, (response_head reason rsp200), (flv_default_header ++ flv_layout 0 (concat ds)). split; [exact A1|]. split; [exact A2|]. split.
  { exact (response_head_message reason rsp200 _ ltac:(cbn; lia) Hre (Forall_nil _)). }
  split; [|exact Hv]. intros fill t Hfl Hnt Hst.
  assert (HF2 : Forall (flv_transportable (zlen fill)) (concat ds)) by (eapply Forall_impl; [|exact HF']; intros p Hp; eapply transportable_mono; [|exact Hp]; lia).
  destruct (flv_demux_stream fill t flv_default_header (flv_layout 0 (concat ds)) (S (length (concat ds))) ltac:(lia) ltac:(lia) Hnt Hst eq_refl eq_refl (flv_layout_bytes _ _ HF' 0)) as (hp & x & r1 & B1 & _ & B2).
  rewrite (spec_flv_all_layout (zlen fill) (t_err t) (concat ds) ltac:(lia) HF2 0) in B1, B2. cbn [fst snd flv_end_ok] in B1, B2. subst x. eauto.
Qed.
(** Who comes to an edge when it has published what an edge that came at [pre]
    has been given up to [mid], gets what it would have got from the first
    server at that moment. *)
Theorem newcomer_same_downstream : forall pre mid, gop_snapshot (gop_snapshot pre ++ mid) = gop_snapshot (pre ++ mid).
Proof. exact snapshot_again. Qed.
(** Players of players: what an edge passes on of what it got is again of this kind. *)
Theorem views_compose : forall ps q q2, view ps q -> view q q2 -> view ps q2.
Proof. exact view_trans. Qed.
(** Two servers. The source puts two groups of pictures; the edge comes in the
    middle of the first, the player after the second has started. *)
Definition ex2_os : list op := [OPublish 0 (str "cdn/live/x"); OPut 0 0 (exs_k 1 0); OPut 0 0 (exs_p 2 40); OPut 0 0 (exs_p 3 80); OPut 0 0 (exs_k 4 120); OPlay 0 50 (str "cdn/live/x"); OPoll 0].
Definition ex2_post : hist := [(OPoll 0, Given [exs_k 4 120])].
Definition ex2_pre : hist := [(OPut 0 0 (exs_k 4 120), Done); (OPut 0 0 (exs_p 3 80), Done); (OPut 0 0 (exs_p 2 40), Done); (OPut 0 0 (exs_k 1 0), Done); (OPublish 0 (str "cdn/live/x"), Done)].
Definition ex2_wire : list Z := str "HTTP/1.1 200 OK" ++ [13; 10] ++ str "Server: sps" ++ [13; 10; 13; 10] ++ flv_default_header ++ flv_layout 0 [exs_k 1 0; exs_p 2 40; exs_p 3 80; exs_k 4 120].
Definition ex2_lib (h : list Z) : Z * rsp_info := (zlen h, mkri 200 (-1) false [(str "Server", str "sps")]).
Example cluster_case : Forall (flv_transportable 64) exs_up /\ cluster 64 1 exs_up [[exs_k 4 120]] /\ ~ In [] [[exs_k 4 120]].
Proof.
  assert (Hk : keeps_order exs_shape) by (intros n l; induction l as [|c l IH]; [reflexivity|]; cbn; f_equal; exact IH).
  split.
  { pose proof (spec_flv_all_transportable 64 0 6 ltac:(lia) exs_body ltac:(apply bytesb_spec; vm_compute; reflexivity)) as K.
    assert (E : fst (spec_flv_all 6 64 0 exs_body) = exs_up) by (vm_compute; reflexivity). rewrite E in K. exact K. }
  split; [|intros [H|[]]; discriminate].
  assert (S1 : served exs_up [[exs_k 1 0; exs_p 2 40]; [exs_p 3 80; exs_k 4 120]]).
  { exists exs_shape, exs_os, (fst (play_events exs_shape live0 [] exs_os)), exs_post, exs_pre, 0%nat, 50, exs_name, 0%nat.
    split; [exact Hk|]. split; [apply (env_b_ok0 3); vm_compute; reflexivity|].
    split; [rewrite (surjective_pairing (play_events exs_shape live0 [] exs_os)) at 1; f_equal; vm_compute; reflexivity|].
    split; [cbn; intuition discriminate|]. repeat split; vm_compute; reflexivity. }
  refine (cl_hop 64 0 _ _ [exs_k 1 0; exs_p 2 40; exs_p 3 80; exs_k 4 120] _ (cl_one _ _ _ S1) _ _).
  - exists (fun _ => str "OK"), [], output_exts, (CMod [] [] [] []), exs_req, (mkw (fun _ => true) (0, false) [[exs_k 1 0; exs_p 2 40]; [exs_p 3 80; exs_k 4 120]] None), (mksk [] None (-5)).
    exists None, (mksk ex2_wire None (-5)), ex2_wire, ex2_lib, input_exts, (str "flv"), ex_dec, 9%nat, (repeat 0 64), ex_q, (mktr [take 5 ex2_wire; drop 5 ex2_wire] 1004), (mksk [] None 7).
    exists (Ok 1004), [exs_k 1 0; exs_p 2 40; exs_p 3 80; exs_k 4 120], (mksk (pull_text ex_q) None 7).
    split; [discriminate|]. split; [reflexivity|]. split; [reflexivity|]. split; [reflexivity|]. split; [discriminate|]. split; [discriminate|]. split; [apply plain_lit; reflexivity|]. split; [reflexivity|].
    split; [vm_compute; reflexivity|]. split; [reflexivity|]. split; [repeat (constructor; [discriminate|]); constructor|]. split; [exists []; vm_compute; reflexivity|].
    split. { intros ds status re fs H D _ _. 
      assert (R : read_message (response_head (fun _ : Z => str "OK") rsp200) = Some (str "HTTP/1.1 200 OK", [(str "Server", str "sps")], [])) by (vm_compute; reflexivity).
      rewrite R in H. assert (H1 : str "HTTP/1.1 200 OK" = str "HTTP/1.1 " ++ ds ++ str " " ++ re) by congruence. assert (H2 : fs = [(str "Server", str "sps")]) by congruence. subst fs.
      rewrite (status_200 _ _ _ H1 D). exists 32. split; [lia|]. vm_compute. reflexivity. }
    split; [reflexivity|]. split; [reflexivity|]. split; [reflexivity|]. split; [vm_compute; reflexivity|]. exists []. apply app_nil_r.
  - exists exs_shape, ex2_os, (fst (play_events exs_shape live0 [] ex2_os)), ex2_post, ex2_pre, 0%nat, 50, (str "cdn/live/x"), 0%nat.
    split; [exact Hk|]. split; [apply (env_b_ok0 3); vm_compute; reflexivity|].
    split; [rewrite (surjective_pairing (play_events exs_shape live0 [] ex2_os)) at 1; f_equal; vm_compute; reflexivity|].
    split; [cbn; intuition discriminate|]. repeat split; vm_compute; reflexivity.
Qed.
Print Assumptions cluster_transparent.
Print Assumptions cluster_player_file.
Print Assumptions newcomer_same_downstream.
Print Assumptions views_compose.

(** C159: pulls that give no stream.  Without a connection, or if the request
    cannot be sent, or the answer's head does not come or is refused, or its
    status is not 200, the pull ends and there is no stream.  An answer whose
    very first byte is refused by the parser (which then has read 0 bytes, taken
    for success) stops the server. *)
Theorem edge_no_stream : forall lib fmts decode q t o,
  edge_http lib fmts decode q false t o = (Ok ERROR_HTTP_SOCKET_CONNECT, None, o) /\
  (sk_room o = Some O -> sk_err o <> 0 -> edge_http lib fmts decode q true t o = (Ok (sk_err o), None, o)) /\
  (forall h wire n ri, nonempty_chunks (t_chunks t) -> is_head h -> zlen h <= MAX_HEADER -> t_stream t = h ++ wire -> lib h = (n, ri) -> sk_room o = None ->
    let o1 := mksk (sk_out o ++ pull_text q) None (sk_err o) in
    (n < 0 -> edge_http lib fmts decode q true t o = (Ok n, None, o1)) /\
    (0 < n -> ri_status ri <> 200 -> edge_http lib fmts decode q true t o = (Ok 0, None, o1)) /\
    (n = 0 -> edge_http lib fmts decode q true t o = (UB, None, o1))).
Proof.
  intros lib fmts decode q t o. split; [reflexivity|]. split.
  { intros Hr He. unfold edge_http, up_open, sk_write. rewrite Hr. cbn [negb]. replace (sk_err o =? 0) with false by lia. reflexivity. }
  intros h wire n ri Hn Hh Hm Hst Hl Hr. cbv zeta.
  assert (Hw : sk_write o (pull_text q) = (Ok tt, mksk (sk_out o ++ pull_text q) None (sk_err o))).
  { unfold sk_write. rewrite Hr. destruct (zlen (pull_text q) =? 0) eqn:E; [|reflexivity]. exfalso. unfold pull_text, http_request in E. rewrite zlen_app in E. change (str " " ++ ?l) with (32 :: l) in E. rewrite zlen_cons in E. apply Z.eqb_eq in E. pose proof (zlen_nonneg (rq_method q)).
    match type of E with _ + (1 + zlen ?b) = 0 => pose proof (zlen_nonneg b) end. lia. }
  destruct (read_head_ok h _ t MAX_HEADER (is_head_shape h Hh) Hn Hst Hm) as (t1 & A1 & _).
  unfold edge_http, up_open. cbn [negb]. rewrite Hw, A1, Hl. split; [|split].
  - intros K. replace (n <=? 0) with true by lia. cbn [negb]. replace (n =? 0) with false by lia. reflexivity.
  - intros K K2. replace (n <=? 0) with false by lia. cbn [Z.eqb negb]. replace (ri_status ri =? 200) with false by lia. reflexivity.
  - intros ->. reflexivity.
Qed.
(** A stream comes only of an answer with status 200. *)
Theorem edge_stream_needs_200 : forall lib fmts decode q conn t o x ps o1, edge_http lib fmts decode q conn t o = (x, Some ps, o1) ->
  conn = true /\ sk_out o1 = sk_out o ++ pull_text q /\ exists h t1 n ri, read_head t MAX_HEADER = (Ok h, t1) /\ lib h = (n, ri) /\ 0 < n /\ ri_status ri = 200.
Proof.
  intros lib fmts decode q conn t o x ps o1 H. unfold edge_http, up_open in H. destruct conn; [|discriminate]. cbn [negb] in H. split; [reflexivity|].
  destruct (sk_write o (pull_text q)) as [[u|c| |] o2] eqn:W; try discriminate; [|destruct (negb (c =? 0)); discriminate].
  destruct (read_head t MAX_HEADER) as [[h|c| |] t1]; try discriminate; [|destruct (negb (c =? 0)); discriminate].
  destruct (lib h) as [n ri] eqn:L. destruct (Z.leb_spec n 0) as [K|K]; [destruct (negb (n =? 0)); discriminate|]. cbn [Z.eqb negb] in H.
  destruct (Z.eqb_spec (ri_status ri) 200) as [K2|K2]; [|discriminate]. cbn [negb] in H.
  assert (Ho : o1 = o2). { destruct (fmt_find fmts (rq_ext q)) as [[f|]|c| |]; try discriminate. destruct (run_plain _ t1) as [[[[y1 y2]|c| |]|c| |] t2]; try discriminate. injection H as _ _ <-. reflexivity. }
  subst o2. split; [|eauto 10]. unfold sk_write in W. destruct (sk_room o) as [[|m]|]; try discriminate; (destruct (zlen (pull_text q) =? 0); [discriminate|]; injection W as _ <-; reflexivity).
Qed.
(** The expected property, that no answer stops the server, is refuted. *)
Theorem edge_survives_answers_refuted : exists lib fmts decode q t o o1,
  (forall h, lib h = if eqb_list (take 5 h) (str "HTTP/") then (zlen h, mkri 200 (-1) false []) else (0, mkri 0 (-1) false [])) /\
  edge_http lib fmts decode q true t o = (UB, None, o1).
Proof.
  exists (fun h => if eqb_list (take 5 h) (str "HTTP/") then (zlen h, mkri 200 (-1) false []) else (0, mkri 0 (-1) false [])), input_exts, ex_dec, ex_q,
    (mktr [str "SSH-2.0-x" ++ [13; 10] ++ str "y" ++ [13; 10; 13; 10]] 1004), (mksk [] None 7).
  eexists. split; [reflexivity|]. vm_compute. reflexivity.
Qed.
Example edge_no_stream_case :
  edge_http ex_lib input_exts ex_dec ex_q false (mktr [] 1004) (mksk [] None 7) = (Ok ERROR_HTTP_SOCKET_CONNECT, None, mksk [] None 7) /\
  edge_http ex_lib input_exts ex_dec ex_q true (mktr [ex_plain] 1004) (mksk [] (Some O) 7) = (Ok 7, None, mksk [] (Some O) 7) /\
  edge_http (fun h => (zlen h, mkri 404 0 false [])) input_exts ex_dec ex_q true (mktr [ex_plain; ex_flv] 1004) (mksk [] None 7) = (Ok 0, None, mksk (pull_text ex_q) None 7).
Proof. repeat split; vm_compute; reflexivity. Qed.
Print Assumptions edge_no_stream.
Print Assumptions edge_stream_needs_200.
Print Assumptions edge_survives_answers_refuted.
