(** Properties C121-C128: stream requests, end to end. *)
From Verif Require Import Base M_Text M_IO S_IO L_IO M_Packet M_Flv S_Flv L_Flv M_Http L_Http2 L_Http3 M_Conf L_Conf L_Host M_Url S_Url
  L_Url M_Host S_Host M_Cache S_Cache M_Ts S_Ts M_Srt L_Ts L_Ts2 L_Ts3 L_Ts4 L_Ts5 L_Ts6 L_TsEx P_Ts M_Live S_Live L_Live L_Live2 L_Live3 L_LiveSet M_Stream S_Stream L_Stream S_Http.
From Coq Require Import Permutation.

(** The streams a player can find, from the history. *)
Definition registered (h : hist) (name : list Z) : bool := match owner name h with Some _ => true | None => false end.

(** ** C121: FLV from publisher to player *)
(** A publisher uploads any FLV bytes in any pieces; a player asks for the
    stream over HTTP while the server goes on.  The bytes the player has
    received are an HTTP 200 head and an FLV file that holds, whatever pieces
    it is read in, exactly the packets handed to the player so far; these are
    the beginning of: the snapshot of what had been published when it joined,
    then everything published since. *)
Theorem flv_relay_end_to_end :
  forall shape os s post pre v a name i  (* the server's events *)
         fill t hdr body fuel hp x r1 up (* the upload *)
         reason ins outs h r e sk        (* the request *),
  keeps_order shape -> env_ok shape live0 os ->
  play_events shape live0 [] os = (s, post ++ (OPlay v a name, Done) :: pre) -> ~ In (OLeave v, Done) post ->
  owner name pre = Some (i, 0%nat) ->
  15 <= zlen fill < 2 ^ 24 -> nonempty_chunks (t_chunks t) -> t_stream t = hdr ++ body -> zlen hdr = 9 ->
  take 3 hdr = [0x46; 0x4C; 0x56] -> bytes body ->
  flv_demux fuel (br_new fill t) = (Ok hp, (up, x, r1)) ->
  initial (puts i 0 (post ++ (OPlay v a name, Done) :: pre)) up ->
  rq_method r <> str "POST" -> cache_key r = name -> w_taken e = registered pre ->
  fmt_find outs (rq_ext r) = Ok (Some (str "flv")) ->
  w_dumps e = polls v post -> ~ In [] (polls v post) -> sk_room sk = None -> S_Http.plain (reason 200) ->
  exists sk1 file, http_stream reason ins outs h r e sk = (None, sk1) /\
    (exists head, sk_out sk1 = sk_out sk ++ head ++ file /\
       read_message (head ++ file) = Some (str "HTTP/1.1 200 " ++ reason 200, [(str "Server", str "sps")], file)) /\
    (forall fill2 t2, zlen fill <= zlen fill2 < 2 ^ 24 -> nonempty_chunks (t_chunks t2) -> t_stream t2 = file ->
       exists hp2 r2, flv_demux (S (length (given v post))) (br_new fill2 t2) = (Ok hp2, (given v post, Err (t_err t2), r2))) /\
    initial (given v post) (gop_snapshot (puts i 0 pre) ++ puts i 0 post).
Proof.
  intros shape os s post pre v a name i fill t hdr body fuel hp x r1 up reason ins outs h r e sk
    Hk Henv Hev Hlv Hown Hfill Hne Hts Hh9 Hh3 Hby Hdm Hup Hm Hkey Htk Hfm Hdu Hnp Hroom Hre.
  destruct (viewer_stream _ _ _ _ _ _ _ _ Hk Henv Hev Hlv) as (i' & k & vx & Ho & _ & _ & Hgv).
  rewrite Hown in Ho. injection Ho as <- <-. cbn [snapshot] in Hgv.
  assert (Htr : Forall (flv_transportable (zlen fill)) (puts i 0 (post ++ (OPlay v a name, Done) :: pre))).
  { destruct (flv_demux_stream fill t hdr body fuel) as (hp' & x' & r' & Hd & _ & _); try assumption; try lia.
    rewrite Hd in Hdm. injection Hdm as _ Hps _ _.
    pose proof (spec_flv_all_transportable (zlen fill) (t_err t) fuel (proj2 Hfill) body Hby) as HF.
    rewrite Hps in HF. destruct Hup as [z <-]. apply Forall_app in HF. tauto. }
  assert (Hg : Forall (flv_transportable (zlen fill)) (given v post)).
  { rewrite puts_app, puts_skip in Htr. apply Forall_app in Htr as [Hp1 Hp2].
    assert (HF : Forall (flv_transportable (zlen fill)) (given v post ++ v_queue vx)).
    { rewrite Hgv. apply Forall_app. split; [|exact Hp2]. rewrite Forall_forall in Hp1 |- *.
      intros p Hp. apply Hp1. apply gop_snapshot_in. exact Hp. }
    apply Forall_app in HF. tauto. }
  assert (Hue : forall l : list (list pkt), ~ In [] l -> until_empty l = l).
  { induction l as [|d l IH]; intros Hn; [reflexivity|]. destruct d as [|p d]; [destruct Hn; left; reflexivity|].
    cbn [until_empty]. rewrite IH; [reflexivity|]. intros Hi. apply Hn. right. exact Hi. }
  pose proof (Hue _ Hnp) as Hu.
  destruct (encode_flv_any reason (polls v post) sk) as (ret & w & out & He & Hout & Hcases).
  { rewrite Hu, polls_given. eapply Forall_impl; [|exact Hg]. intros p Hp. eapply transportable_fits; [|exact Hp]. lia. }
  cbv zeta in Hcases. rewrite Hu, polls_given in Hcases.
  destruct Hcases as [(-> & _ & ->)|[(_ & Hc & _)|(_ & Hc & _)]]; [|congruence|congruence].
  assert (Hst : stream_request reason ins outs h r e (rsp200, sk) = (None, w)).
  { unfold stream_request. rewrite eqb_list_neq by exact Hm. unfold play_start.
    rewrite Htk, Hkey. unfold registered. rewrite Hown. cbn [negb andb orb]. change (0 =? 0) with true. cbn [negb orb].
    rewrite Hfm. cbn [bind]. rewrite Hdu. exact He. }
  exists (snd w), (flv_default_header ++ flv_layout 0 (given v post)).
  split; [unfold http_stream; rewrite Hst; reflexivity|]. split.
  { exists (response_head reason rsp200). split; [exact Hout|].
    rewrite response_head_message; [reflexivity|cbn; lia|exact Hre|constructor]. }
  split; [|exists (v_queue vx); exact Hgv].
  intros fill2 t2 Hf2 Hn2 Ht2.
  destruct (flv_write_all_ok (given v post) flvmux0 flv_default_header) as [pv Hv].
  { eapply Forall_impl; [|exact Hg]. intros p Hp. apply (transportable_fits (zlen fill)); [lia|exact Hp]. }
  rewrite (filter_all (flv_kept flvmux0)) in Hv by (intros q; unfold flv_kept; cbn [flvmux0 fm_fvideo fm_faudio fm_fmeta]; rewrite !andb_false_r; reflexivity).
  refine (flv_roundtrip fill2 t2 (given v post) _ _ Hn2 _ _ _ eq_refl Hv Ht2); [lia|].
  eapply Forall_impl; [|exact Hg]. intros p Hp. eapply transportable_mono; [|exact Hp]. lia.
Qed.
Print Assumptions flv_relay_end_to_end.

Definition exs_k (n t : Z) := mkpkt AV_MESSAGE_DATA AV_STREAM_TYPE_VIDEO 1 t (t + 40) 0x17 CODEC_H264 [n].
Definition exs_p (n t : Z) := mkpkt AV_MESSAGE_DATA AV_STREAM_TYPE_VIDEO 1 t t 0x27 CODEC_H264 [n; n].
Definition exs_name := str "h/live/x".
Definition exs_os : list op :=
  [OPublish 0 exs_name; OPut 0 0 (exs_k 1 0); OPut 0 0 (exs_p 2 40); OPlay 0 50 exs_name; OPoll 0;
   OPut 0 0 (exs_p 3 80); OPut 0 0 (exs_k 4 120); OPoll 0; OPut 0 0 (exs_p 5 160)].
Definition exs_shape : shaper := fun _ => fix sp (l : list entry) : tr := match l with [] => Lf | e :: r => Nd Lf e (sp r) end.
Definition exs_up := [exs_k 1 0; exs_p 2 40; exs_p 3 80; exs_k 4 120; exs_p 5 160].
Definition exs_body := flv_layout 0 exs_up.
Definition exs_req := mkrq (str "/live/x.flv") (str "GET") (str "http") 80 (str "h") (str "/live/x.flv") (str "flv") [] [] [].
Definition exs_post : hist :=
  [(OPut 0 0 (exs_p 5 160), Done); (OPoll 0, Given [exs_p 3 80; exs_k 4 120]); (OPut 0 0 (exs_k 4 120), Done);
   (OPut 0 0 (exs_p 3 80), Done); (OPoll 0, Given [exs_k 1 0; exs_p 2 40])].
Definition exs_pre : hist :=
  [(OPut 0 0 (exs_p 2 40), Done); (OPut 0 0 (exs_k 1 0), Done); (OPublish 0 exs_name, Done)].
Example flv_relay_case :
  keeps_order exs_shape /\ env_ok exs_shape live0 exs_os /\
  snd (play_events exs_shape live0 [] exs_os) = exs_post ++ (OPlay 0 50 exs_name, Done) :: exs_pre /\
  owner exs_name exs_pre = Some (0%nat, 0%nat) /\ bytes exs_body /\
  (exists hp x r1, flv_demux 20 (br_new (repeat 0 64) (mktr [flv_default_header; exs_body] (-5))) = (Ok hp, (exs_up, x, r1))) /\
  puts 0 0 (exs_post ++ (OPlay 0 50 exs_name, Done) :: exs_pre) = exs_up /\
  cache_key exs_req = exs_name /\ fmt_find output_exts (rq_ext exs_req) = Ok (Some (str "flv")) /\
  polls 0 exs_post = [[exs_k 1 0; exs_p 2 40]; [exs_p 3 80; exs_k 4 120]].
Proof.
  split. { intros n l. induction l as [|c l IH]; [reflexivity|]. cbn. f_equal. exact IH. }
  split. { apply (env_b_ok0 3). vm_compute. reflexivity. }
  split; [vm_compute; reflexivity|]. split; [reflexivity|]. split; [apply bytesb_spec; vm_compute; reflexivity|].
  split. { do 3 eexists. vm_compute. reflexivity. }
  repeat split; vm_compute; reflexivity.
Qed.

(** ** C122: how a player ends *)
(** Whatever packets the stream has, a player ends in two ways only: nothing
    came for 10 seconds, after everything it was given had been sent; or a
    write failed, after a first part had been sent.  Then it gets the socket's
    error.  Until then it has been sent everything it was given. *)
Theorem http_player_ends : forall reason ins outs h r e sk,
  rq_method r <> str "POST" -> w_taken e (cache_key r) = true -> fmt_find outs (rq_ext r) = Ok (Some (str "flv")) ->
  Forall flv_fits (concat (until_empty (w_dumps e))) ->
  sk_err sk <> ERROR_STREAM_PUBLISH_NOT_SUPPORT -> sk_err sk <> ERROR_STREAM_SOURCE_NOT_EXITS ->
  let full := response_head reason rsp200 ++ flv_default_header ++ flv_layout 0 (concat (until_empty (w_dumps e))) in
  exists ret sk1 sent, http_stream reason ins outs h r e sk = (ret, sk1) /\ sk_out sk1 = sk_out sk ++ sent /\
    ((ret = None /\ ~ In [] (w_dumps e) /\ sent = full) \/
     (ret = Some (Ok ERROR_SOCKET_TIMEOUT) /\ In [] (w_dumps e) /\ sent = full) \/
     (ret = Some (Ok (sk_err sk)) /\ sk_room sk <> None /\ initial sent full)).
Proof.
  intros reason ins outs h r e sk Hm Ht Hf HF H1 H2 full.
  destruct (encode_flv_any reason (w_dumps e) sk HF) as (ret & w & sent & He & Ho & Hc). cbv zeta in Hc. fold full in Hc.
  assert (Hst : stream_request reason ins outs h r e (rsp200, sk) = (ret, w)).
  { unfold stream_request. rewrite eqb_list_neq by exact Hm. unfold play_start.
    rewrite Ht. cbn [negb andb orb]. change (0 =? 0) with true. cbn [negb orb]. rewrite Hf. exact He. }
  assert (Hin : until_empty (w_dumps e) = w_dumps e <-> ~ In [] (w_dumps e)).
  { clear. induction (w_dumps e) as [|[|p d] l IH]; cbn [until_empty In]; [tauto| |].
    - split; [discriminate|intros H; destruct H; auto].
    - split.
      + intros [= H] [E|E]; [discriminate|]. apply IH in H. contradiction.
      + intros H. f_equal. apply IH. auto. }
  exists ret, (snd w), sent. split.
  { unfold http_stream. rewrite Hst. destruct Hc as [(-> & _)|[(-> & _)|(-> & _)]]; try reflexivity.
    replace (sk_err sk =? ERROR_STREAM_PUBLISH_NOT_SUPPORT) with false by lia.
    replace (sk_err sk =? ERROR_STREAM_SOURCE_NOT_EXITS) with false by lia. reflexivity. }
  split; [exact Ho|]. destruct Hc as [(-> & Hc & ->)|[(-> & Hc & ->)|(-> & Hc & Hi)]].
  - left. split; [reflexivity|]. split; [tauto|reflexivity].
  - right. left. split; [reflexivity|]. split; [|reflexivity].
    destruct (in_dec (list_eq_dec (fun a b : pkt => ltac:(decide equality; solve [apply Z.eq_dec|apply list_eq_dec, Z.eq_dec]))) [] (w_dumps e)); tauto.
  - right. right. auto.
Qed.
Print Assumptions http_player_ends.
Example http_player_ends_case :
  http_stream (fun _ => str "OK") [] output_exts (CMod [] [] [] []) exs_req
    (mkw (fun _ => true) (0, false) [[exs_k 1 0]; []] None) (mksk [] None (-5)) =
  (Some (Ok ERROR_SOCKET_TIMEOUT),
   mksk (str "HTTP/1.1 200 OK" ++ [13; 10] ++ str "Server: sps" ++ [13; 10; 13; 10] ++ flv_default_header ++
         flv_layout 0 [exs_k 1 0]) None (-5)) /\
  fst (http_stream (fun _ => str "OK") [] output_exts (CMod [] [] [] []) exs_req
    (mkw (fun _ => true) (0, false) [[exs_k 1 0]; [exs_p 2 4]; []] None) (mksk [] (Some 3%nat) (-5))) = Some (Ok (-5)).
Proof. split; vm_compute; reflexivity. Qed.

(** ** C123: who may publish *)
(** Over HTTP: exactly on a host with role "source", in the host's format (or
    any, when it says "all") for which there is a reader, and if no stream of
    the name exists. *)
Theorem http_publish_rule : forall fmts h r taken f,
  publish_start fmts h r taken = Ok f <->
  opt_str h (str "role") = str "source" /\
  (opt_str h (str "edge_avformat") = str "all" \/ opt_str h (str "edge_avformat") = rq_ext r) /\
  fmt_find fmts (rq_ext r) = Ok (Some f) /\ taken (cache_key r) = false.
Proof.
  intros fmts h r taken f. unfold publish_start, is_source, support_publish.
  destruct (eqb_list (opt_str h (str "role")) (str "source")) eqn:E1; cbn [negb orb].
  2: { split; [discriminate|]. intros (H & _). rewrite H, eqb_list_refl in E1. discriminate. }
  apply eqb_list_spec in E1.
  destruct (eqb_list (opt_str h (str "edge_avformat")) (str "all") || eqb_list (opt_str h (str "edge_avformat")) (rq_ext r)) eqn:E2; cbn [negb].
  2: { split; [discriminate|]. intros (_ & H & _). apply orb_false_iff in E2 as [E2 E3].
       destruct H as [H|H]; rewrite H, eqb_list_refl in *; discriminate. }
  assert (Hs : opt_str h (str "edge_avformat") = str "all" \/ opt_str h (str "edge_avformat") = rq_ext r).
  { apply orb_true_iff in E2 as [E2|E2]; apply eqb_list_spec in E2; auto. }
  destruct (fmt_find fmts (rq_ext r)) as [[g|]| | |]; cbn [bind];
    try (split; [discriminate|intros (_ & _ & H & _); discriminate]).
  destruct (taken (cache_key r)).
  - split; [discriminate|intros (_ & _ & _ & H); discriminate].
  - split; [intros [= <-]; auto|intros (_ & _ & [= <-] & _); reflexivity].
Qed.
Print Assumptions http_publish_rule.
Definition exs_host (role fmt : list Z) := CMod (str "host") (str "h") [(str "role", role); (str "edge_avformat", fmt)] [].
Example http_publish_case :
  publish_start input_exts (exs_host (str "source") (str "flv")) exs_req (fun _ => false) = Ok (str "flv") /\
  publish_start input_exts (exs_host (str "edge") (str "flv")) exs_req (fun _ => false) = Err ERROR_STREAM_PUBLISH_NOT_SUPPORT.
Proof. split; reflexivity. Qed.
(** Over SRT a publisher is accepted exactly if nobody publishes the stream. *)
Theorem srt_publish_rule : forall h r taken,
  (taken (srt_key r) = false -> srt_publish_start h r taken = Ok tt) /\
  (taken (srt_key r) = true -> srt_publish_start h r taken = Err ERROR_RTMP_HAS_SOURCE).
Proof. intros h r taken. unfold srt_publish_start. split; intros ->; reflexivity. Qed.
Print Assumptions srt_publish_rule.
Example srt_publish_case :
  srt_publish_start (exs_host (str "source") (str "flv")) exs_req (fun k => eqb_list k (srt_key exs_req)) = Err ERROR_RTMP_HAS_SOURCE /\
  srt_publish_start (exs_host (str "source") (str "flv")) exs_req (fun k => eqb_list k (str "other")) = Ok tt.
Proof. split; reflexivity. Qed.
(** Over SRT the host's settings are not looked at: an edge host takes SRT
    publishers while it refuses HTTP ones. *)
Theorem srt_publish_checks_host_refuted : exists h r, 
  opt_str h (str "role") = str "edge" /\ publish_start input_exts h r (fun _ => false) = Err ERROR_STREAM_PUBLISH_NOT_SUPPORT /\
  srt_publish_start h r (fun _ => false) = Ok tt.
Proof. exists (exs_host (str "edge") (str "flv")), exs_req. repeat split. Qed.
Print Assumptions srt_publish_checks_host_refuted.

(** ** C124: what HTTP clients are told *)
(** A publisher the host does not allow gets a 403 and a player of an unknown
    stream a 404; both heads announce no length, so the body never ends for the
    client, while the server goes on with the connection (result 0).  All other
    refusals are silent, and so is an accepted upload, whatever becomes of it. *)
Definition bare_answer (reason : Z -> list Z) (status : Z) (sk sk1 : sink) : Prop :=
  exists head, sk_out sk1 = sk_out sk ++ head /\
    forall rest, read_message (head ++ rest) =
      Some (str "HTTP/1.1 " ++ decs status ++ str " " ++ reason status, [(str "Server", str "sps")], rest).
Theorem http_stream_answers : forall reason ins outs h r e sk,
  S_Http.plain (reason 403) -> S_Http.plain (reason 404) -> sk_room sk = None ->
  let go := http_stream reason ins outs h r e sk in
  (rq_method r = str "POST" -> publish_start ins h r (w_taken e) = Err ERROR_STREAM_PUBLISH_NOT_SUPPORT ->
     fst go = Some (Ok 0) /\ bare_answer reason 403 sk (snd go)) /\
  (rq_method r <> str "POST" -> w_taken e (cache_key r) = false -> is_edge h = false ->
     fst go = Some (Ok 0) /\ bare_answer reason 404 sk (snd go)) /\
  (rq_method r = str "POST" -> forall c, publish_start ins h r (w_taken e) = Err c -> c <> ERROR_STREAM_PUBLISH_NOT_SUPPORT ->
     go = (Some (Ok c), sk)) /\
  (rq_method r <> str "POST" -> w_taken e (cache_key r) = true -> fmt_find outs (rq_ext r) = Ok None ->
     go = (Some (Ok ERROR_AVFORMAT_ENCODER_NOT_EXISTS), sk)) /\
  (rq_method r = str "POST" -> forall f, publish_start ins h r (w_taken e) = Ok f ->
     w_decode e <> Some (Ok ERROR_STREAM_PUBLISH_NOT_SUPPORT) -> w_decode e <> Some (Ok ERROR_STREAM_SOURCE_NOT_EXITS) ->
     go = (w_decode e, sk)).
Proof.
  intros reason ins outs h r e sk H3 H4 Hr go.
  assert (Hans : forall st, S_Http.plain (reason st) -> 0 <= st -> exists sk1 h1,
            answer reason st (rsp200, sk) = (Some (Ok 0), (h1, sk1)) /\ bare_answer reason st sk sk1).
  { intros st Hp H0. unfold answer. rewrite hr_header_none by exact Hr. do 2 eexists. split; [reflexivity|].
    exists (response_head reason (hr_init rsp200 st None (-1) false)). split; [reflexivity|].
    intros rest. rewrite response_head_message; [reflexivity|exact H0|exact Hp|constructor]. }
  split; [|split; [|split; [|split]]].
  - intros Hm Hp. unfold go, http_stream, stream_request. rewrite Hm, Hp. cbn [eqb_list].
    destruct (Hans 403 H3 ltac:(lia)) as (sk1 & h1 & Ha & Hb). rewrite eqb_list_refl.
    change (ERROR_STREAM_PUBLISH_NOT_SUPPORT =? ERROR_STREAM_PUBLISH_NOT_SUPPORT) with true. cbv iota. rewrite Ha. auto.
  - intros Hm Ht He. unfold go, http_stream, stream_request. rewrite eqb_list_neq by exact Hm. unfold play_start.
    rewrite Ht, He. cbn [negb andb orb]. destruct (Hans 404 H4 ltac:(lia)) as (sk1 & h1 & Ha & Hb).
    change (ERROR_STREAM_SOURCE_NOT_EXITS =? ERROR_STREAM_PUBLISH_NOT_SUPPORT) with false.
    change (ERROR_STREAM_SOURCE_NOT_EXITS =? ERROR_STREAM_SOURCE_NOT_EXITS) with true. cbv iota. rewrite Ha. auto.
  - intros Hm c Hp Hc. unfold go, http_stream, stream_request. rewrite Hm, eqb_list_refl, Hp.
    replace (c =? ERROR_STREAM_PUBLISH_NOT_SUPPORT) with false by lia.
    assert (c <> ERROR_STREAM_SOURCE_NOT_EXITS).
    { intros ->. unfold publish_start in Hp. destruct (_ || _); [discriminate|].
      destruct (fmt_find ins (rq_ext r)) as [[g|]| | |] eqn:Ef; cbn [bind] in Hp; try discriminate.
      - destruct (w_taken e (cache_key r)); discriminate.
      - injection Hp as ->. clear - Ef. revert Ef. generalize (rq_ext r) as x. intros x. induction ins as [|f fs IH]; [discriminate|].
        cbn [fmt_find]. unfold fmt_match. destruct (_ <? _); [discriminate|]. cbn [bind]. destruct (eqb_list _ _); [discriminate|exact IH]. }
    replace (c =? ERROR_STREAM_SOURCE_NOT_EXITS) with false by lia. reflexivity.
  - intros Hm Ht Hf. unfold go, http_stream, stream_request. rewrite eqb_list_neq by exact Hm. unfold play_start. rewrite Ht. cbn [negb andb orb].
    change (0 =? 0) with true. cbn [negb orb]. rewrite Hf. reflexivity.
  - intros Hm f Hp H1 H2. unfold go, http_stream, stream_request. rewrite Hm, eqb_list_refl, Hp.
    destruct (w_decode e) as [[c| | |]|]; try reflexivity.
    replace (c =? ERROR_STREAM_PUBLISH_NOT_SUPPORT) with false by (symmetry; apply Z.eqb_neq; intros ->; auto).
    replace (c =? ERROR_STREAM_SOURCE_NOT_EXITS) with false by (symmetry; apply Z.eqb_neq; intros ->; auto). reflexivity.
Qed.
Print Assumptions http_stream_answers.
Example http_stream_answers_case :
  http_stream (fun _ => str "Not Found") [] output_exts (CMod [] [] [] []) exs_req
    (mkw (fun _ => false) (0, false) [] None) (mksk [] None (-5)) =
  (Some (Ok 0), mksk (str "HTTP/1.1 404 Not Found" ++ [13; 10] ++ str "Server: sps" ++ [13; 10; 13; 10]) None (-5)).
Proof. vm_compute. reflexivity. Qed.

(** C192: a missing stream is fetched exactly on hosts with the role "edge": there
    the answer is that of a present stream if fetching succeeds and makes it
    present, and on every other host the result of fetching is never asked for. *)
Theorem play_fetches_on_edges_only : forall outs h r taken edge, taken (cache_key r) = false ->
  (opt_str h (str "role") = str "edge" -> fst edge = 0 -> snd edge = true ->
     forall edge', play_start outs h r taken edge = play_start outs h r (fun _ => true) edge') /\
  (opt_str h (str "role") = str "edge" -> fst edge <> 0 \/ snd edge = false -> play_start outs h r taken edge = Err ERROR_STREAM_SOURCE_NOT_EXITS) /\
  (opt_str h (str "role") <> str "edge" -> play_start outs h r taken edge = Err ERROR_STREAM_SOURCE_NOT_EXITS).
Proof.
  intros outs h r taken [c b] Ht. cbn [fst snd]. unfold play_start, is_edge. rewrite Ht. cbn [negb andb].
  split; [|split].
  - intros -> -> -> edge'. rewrite eqb_list_refl. reflexivity.
  - intros -> Hcb. rewrite eqb_list_refl. destruct Hcb as [Hc| ->]; [|reflexivity].
    replace (c =? 0) with false by lia. rewrite orb_true_r. reflexivity.
  - intros Hr. rewrite eqb_list_neq by exact Hr. reflexivity.
Qed.
Print Assumptions play_fetches_on_edges_only.
Example play_fetches_case :
  let h role := CMod (str "host") (str "h") [(str "role", str role)] [] in
  play_start output_exts (h "edge"%string) exs_req (fun _ => false) (0, true) = Ok (str "flv") /\
  play_start output_exts (h "edge"%string) exs_req (fun _ => false) (5, true) = Err ERROR_STREAM_SOURCE_NOT_EXITS /\
  play_start output_exts (h "proxy"%string) exs_req (fun _ => false) (0, true) = Err ERROR_STREAM_SOURCE_NOT_EXITS.
Proof. cbv zeta. repeat split; vm_compute; reflexivity. Qed.

(** ** C125: a URL that stops the server *)
(** Playing over HTTP any live stream with an extension that begins with "-"
    chooses the RTMP writer, which has no RTMP session to write to; the first
    media packet goes through a null pointer.  The stream is the one its normal
    players watch. *)
Theorem http_play_dash_crashes : forall reason ins outs h r e sk p rest x d ds,
  Permutation outs output_exts -> rq_method r <> str "POST" ->
  rq_ext r = 45 :: x -> rq_path r = p ++ 46 :: rq_ext r -> x <> [] -> zlen (rq_path r) < 2 ^ 64 ->
  w_taken e (rq_host r ++ p) = true -> w_dumps e = (d :: rest) :: ds -> flv_known d = true ->
  fst (http_stream reason ins outs h r e sk) = Some UB.
Proof.
  intros reason ins outs h r e sk p rest x d ds Hp Hm Hx Hpath Hne Hlen Ht Hd Hk.
  assert (Hkey : cache_key r = rq_host r ++ p).
  { apply (cache_key_dot r p (rq_ext r) Hpath eq_refl); [rewrite Hx; discriminate| |exact Hlen].
    rewrite Hx. intros E. injection E as E. auto. }
  assert (Hf : fmt_find outs (rq_ext r) = Ok (Some (str "-"))).
  { rewrite Hx. destruct x as [|x0 x]; [congruence|].
    assert (Hflv : fmt_match (str "flv") (45 :: x0 :: x) = Ok false).
    { unfold fmt_match. pose proof (zlen_nonneg x). change (zlen (str "flv")) with 3.
      replace (zlen ((45 :: x0 :: x) ++ [0]) <? 3) with false by (rewrite zlen_app, !zlen_cons; change (zlen (@nil Z)) with 0; lia).
      reflexivity. }
    assert (Hda : fmt_match (str "-") (45 :: x0 :: x) = Ok true).
    { unfold fmt_match. pose proof (zlen_nonneg x). change (zlen (str "-")) with 1.
      replace (zlen ((45 :: x0 :: x) ++ [0]) <? 1) with false by (rewrite zlen_app, !zlen_cons; change (zlen (@nil Z)) with 0; lia).
      reflexivity. }
    apply Permutation_sym in Hp. pose proof (Permutation_length_2_inv Hp) as [->| ->]; cbn [fmt_find]; rewrite ?Hflv, ?Hda; reflexivity. }
  unfold http_stream, stream_request. rewrite eqb_list_neq by exact Hm. unfold play_start.
  rewrite Hkey, Ht. cbn [negb andb orb]. change (0 =? 0) with true. cbn [negb orb]. rewrite Hf. cbn [bind].
  rewrite Hd. unfold encode, mux_of. change (eqb_list (str "-") (str "flv")) with false. cbn [mux_header enc_loop enc_batch mux_packet].
  assert (Hs : is_script d || is_audio d || is_video d = true).
  { unfold flv_known in Hk. unfold is_script, is_audio, is_video.
    destruct (p_stream d =? AV_STREAM_TYPE_AUDIO), (p_stream d =? AV_STREAM_TYPE_VIDEO), (p_stream d =? AV_STREAM_TYPE_SUBTITLE);
      cbn in Hk |- *; congruence. }
  rewrite Hs. reflexivity.
Qed.
Print Assumptions http_play_dash_crashes.
Definition exs_dash := mkrq (str "/live/x.-a") (str "GET") (str "http") 80 (str "h") (str "/live/x.-a") (str "-a") [] [] [].
Example http_play_dash_case :
  cache_key exs_dash = cache_key exs_req /\
  url_from hp_url (str "http://h/live/x.-a") = (Ok 0, exs_dash) /\
  fst (http_stream (fun _ => str "OK") input_exts output_exts (CMod [] [] [] []) exs_dash
    (mkw (fun _ => true) (0, false) [[exs_k 1 0]] None) (mksk [] None (-5))) = Some UB.
Proof. split; [|split]; vm_compute; reflexivity. Qed.

(** ** C126: where an edge pulls from *)
Definition scheme_port (schema : list Z) (p : Z) : Prop :=
  (schema = str "rtmp" /\ p = 1935) \/ (schema = str "https" /\ p = 443) \/
  (schema <> str "rtmp" /\ schema <> str "https" /\ p = 80).
Lemma scheme_port_ok (r : ureq) : scheme_port (rq_schema r)
  (if eqb_list (rq_schema r) (str "rtmp") then 1935 else if eqb_list (rq_schema r) (str "https") then 443 else 80).
Proof.
  unfold scheme_port. destruct (eqb_list (rq_schema r) (str "rtmp")) eqn:E1; [apply eqb_list_spec in E1; auto|].
  destruct (eqb_list (rq_schema r) (str "https")) eqn:E2; [apply eqb_list_spec in E2; auto|].
  right. right. repeat split; intros E; rewrite E, eqb_list_refl in *; discriminate.
Qed.
(** A host with pass_proxy "addr" or "addr:port" pulls the path and query the
    player asked for, with the player's scheme, from addr and the port or the
    scheme's own. *)
Theorem edge_pulls_same_path : forall lib h r addr port path query,
  url_lib_ok lib -> url_wf (rq_schema r) addr port (Some path) query -> rq_schema r <> str "file" ->
  rq_url r = path ++ match query with Some q => 63 :: q | None => [] end ->
  opt_str h (str "pass_url") = [] -> (forall m, In m (cm_subs h) -> cm_type m <> str "upstream") ->
  opt_str h (str "pass_proxy") = addr ++ match port with Some p => 58 :: p | None => [] end ->
  exists q p, edge_target lib h r = Ok (Some (addr, p, q)) /\ connect_addr addr q = addr /\
    match port with Some ds => p = dec_value ds 0 | None => scheme_port (rq_schema r) p end /\
    rq_schema q = rq_schema r /\ rq_host q = addr /\ rq_path q = path /\
    rq_params q = match query with Some x => x | None => [] end /\ rq_url q = rq_url r /\
    rq_method q = str "GET" /\ rq_headers q = [] /\ (forall e, has_ext path e -> rq_ext q = e).
Proof.
  intros lib h r addr port path query Hl Hwf Hf Hu Hpu Hup Hpp. unfold edge_target.
  set (port0 := if eqb_list (rq_schema r) (str "rtmp") then 1935 else if eqb_list (rq_schema r) (str "https") then 443 else 80).
  assert (H58 : ~ In 58 addr).
  { pose proof (proj2 (uw_host _ _ _ _ _ Hwf)) as Hh. rewrite Forall_forall in Hh. intros Hin. specialize (Hh 58 Hin).
    unfold host_c, alpha, digit_c in Hh. lia. }
  assert (Hpi : proxy_info h port0 = (addr, match port with Some ds => dec_value ds 0 | None => port0 end)).
  { destruct port as [ds|].
    - pose proof (uw_port _ _ _ _ _ Hwf) as (Hne & Hd & Hle). cbv beta iota in *.
      unfold proxy_info. rewrite last_upstream_none by exact Hup. rewrite Hpp. rewrite find_char_first by exact H58. rewrite take_app_exact by reflexivity. f_equal.
      replace (addr ++ 58 :: ds) with ((addr ++ [58]) ++ ds) by (rewrite <- app_assoc; reflexivity).
      rewrite drop_app_exact by (rewrite zlen_app; reflexivity). apply conf_number; [exact Hne|exact Hd|lia].
    - rewrite app_nil_r in Hpp. unfold proxy_info. rewrite last_upstream_none by exact Hup. rewrite Hpp. rewrite find_char_none by exact H58. reflexivity. }
  rewrite Hpi, Hpu.
  assert (Ht : rq_schema r ++ str "://" ++ opt_str h (str "pass_proxy") ++ rq_url r = url_text (rq_schema r) addr port (Some path) query).
  { unfold url_text. rewrite Hpp, Hu, <- !app_assoc. reflexivity. }
  rewrite Ht.
  destruct (parse_url_ok lib rq_new (rq_schema r) addr port (Some path) query Hl Hwf eq_refl eq_refl eq_refl Hf) as (pp & _ & Hp).
  unfold url_from. rewrite Hp. cbn [Z.eqb]. do 2 eexists. split; [reflexivity|].
  split. { unfold connect_addr. destruct addr as [|c addr]; [|reflexivity]. destruct (proj1 (uw_host _ _ _ _ _ Hwf)); reflexivity. }
  split. { destruct port; [reflexivity|]. apply scheme_port_ok. }
  cbn [rq_schema rq_host rq_path rq_params rq_url rq_method rq_headers rq_ext opt_or]. repeat split; auto. intros e He. apply ext_of_has, He.
Qed.
Print Assumptions edge_pulls_same_path.
Definition exs_pull (opts : list (list Z * list Z)) := CMod (str "host") (str "h") ((str "role", str "edge") :: opts) [].
Example edge_pulls_case :
  edge_target hp_url (exs_pull [(str "pass_proxy", str "origin:8080")])
    (mkrq (str "/live/x.flv?t=1") (str "GET") (str "http") 80 (str "h") (str "/live/x.flv") (str "flv") (str "t=1") [] []) =
  Ok (Some (str "origin", 8080, mkrq (str "/live/x.flv?t=1") (str "GET") (str "http") 8080 (str "origin") (str "/live/x.flv") (str "flv") (str "t=1") [(str "t", str "1")] [])).
Proof. vm_compute. reflexivity. Qed.
(** With pass_url, and neither pass_proxy nor an upstream block, the fixed URL
    is pulled from its host, but its port is not used: the connection goes to
    the usual port of the scheme the player came with. *)
Theorem edge_pass_url_port_ignored : forall lib h r schema host port path query,
  url_lib_ok lib -> url_wf schema host port path query -> schema <> str "file" ->
  opt_str h (str "pass_url") = url_text schema host port path query ->
  (forall m, In m (cm_subs h) -> cm_type m <> str "upstream") -> opt_str h (str "pass_proxy") = [] ->
  exists q p, edge_target lib h r = Ok (Some ([], p, q)) /\ connect_addr [] q = host /\ scheme_port (rq_schema r) p /\
    (forall ds, port = Some ds -> rq_port q = dec_value ds 0).
Proof.
  intros lib h r schema host port path query Hl Hwf Hf Hpu Hup Hpp. unfold edge_target, proxy_info.
  rewrite last_upstream_none by exact Hup. rewrite Hpp, Hpu. cbn [find_char].
  destruct (url_text schema host port path query) as [|c u] eqn:Eu.
  { unfold url_text in Eu. apply app_eq_nil in Eu as [_ Eu]. discriminate. }
  rewrite <- Eu.
  destruct (parse_url_ok lib rq_new schema host port path query Hl Hwf eq_refl eq_refl eq_refl Hf) as (pp & _ & Hp).
  unfold url_from. rewrite Hp. cbn [Z.eqb]. do 2 eexists. split; [reflexivity|]. split; [reflexivity|].
  split; [apply scheme_port_ok|]. intros ds ->. reflexivity.
Qed.
Print Assumptions edge_pass_url_port_ignored.
Example edge_pass_url_case :
  edge_target hp_url (exs_pull [(str "pass_url", str "http://origin:8080/up/y.flv")]) exs_req =
  Ok (Some ([], 80, mkrq (str "/up/y.flv") (str "GET") (str "http") 8080 (str "origin") (str "/up/y.flv") (str "flv") [] [] [])).
Proof. vm_compute. reflexivity. Qed.

(** ** C127: pulls that work, and pulls that stop the server *)
(** A pull gives a stream exactly when it is by HTTP, the connection opens, the
    origin answers 200 and there is a reader for the extension.  A pull by RTMP
    or from a file that opens, and a 200 answer for an extension without a
    reader, go through a null pointer.  Nothing else does, if an answer was
    parsed (C159 has the other case); other schemes, https among them, end at
    once. *)
Theorem edge_pull_outcomes : forall fmts q opened status,
  Permutation fmts input_exts -> 2 <= zlen (rq_ext q) ->
  (forall f, edge_handler fmts q opened status = Ok (EStream f) <->
     rq_schema q = str "http" /\ opened = 0 /\ status = 200 /\ fmt_find fmts (rq_ext q) = Ok (Some f)) /\
  (edge_handler fmts q opened status = UB <->
     opened = 0 /\ (rq_schema q = str "rtmp" \/ rq_schema q = str "file" \/
       (rq_schema q = str "http" /\ status = 200 /\ fmt_find fmts (rq_ext q) = Ok None))) /\
  (opened <> 0 \/ (rq_schema q = str "http" /\ status <> 200) \/ rq_schema q = str "https" ->
     exists c, edge_handler fmts q opened status = Ok (EEnded c)).
Proof.
  intros fmts q opened status Hp Hl.
  assert (Hfind : exists o, fmt_find fmts (rq_ext q) = Ok o).
  { clear - Hp Hl. assert (Hall : Forall (fun f => zlen f <= 3) fmts).
    { apply Forall_forall. intros f Hin. apply (Permutation_in f Hp) in Hin. cbn in Hin.
      destruct Hin as [<-|[<-|[<-|[]]]]; vm_compute; discriminate. }
    clear Hp. induction Hall as [|f fs H3 Hfs IH]; [exists None; reflexivity|].
    cbn [fmt_find]. unfold fmt_match. replace (zlen (rq_ext q ++ [0]) <? zlen f) with false
      by (rewrite zlen_app; change (zlen [0]) with 1; lia).
    cbn [bind]. destruct (eqb_list _ _); [eexists; reflexivity|exact IH]. }
  destruct Hfind as [o Ho]. unfold edge_handler, up_kind.
  destruct (eqb_list (rq_schema q) (str "http")) eqn:E1.
  { apply eqb_list_spec in E1. rewrite E1, Ho. destruct (opened =? 0) eqn:Eo; cbn [negb].
    - assert (opened = 0) as -> by lia. destruct (status =? 200) eqn:Es; cbn [negb].
      + assert (status = 200) as -> by lia. destruct o as [g|]; cbn [bind].
        * split; [|split].
          { intros f. split; [intros [= <-]; auto|intros (_ & _ & _ & [= <-]); reflexivity]. }
          { split; [discriminate|]. intros (_ & [H|[H|(_ & _ & H)]]); discriminate. }
          { intros [H|[(_ & H)|H]]; [congruence|congruence|discriminate]. }
        * split; [|split].
          { intros f. split; [discriminate|intros (_ & _ & _ & H); discriminate]. }
          { split; [|reflexivity]. intros _. auto 6. }
          { intros [H|[(_ & H)|H]]; [congruence|congruence|discriminate]. }
      + assert (status <> 200) as Hs by lia. split; [|split].
        { intros f. split; [discriminate|intros (_ & _ & H & _); congruence]. }
        { split; [discriminate|]. intros (_ & [H|[H|(_ & H & _)]]); [discriminate|discriminate|congruence]. }
        { intros _. eexists. reflexivity. }
    - assert (opened <> 0) as Hs by lia. split; [|split].
      { intros f. split; [discriminate|intros (_ & H & _); congruence]. }
      { split; [discriminate|]. intros (H & _). congruence. }
      { intros _. eexists. reflexivity. } }
  assert (N1 : rq_schema q <> str "http") by (intros E; rewrite E, eqb_list_refl in E1; discriminate).
  destruct (eqb_list (rq_schema q) (str "file")) eqn:E2; [apply eqb_list_spec in E2|destruct (eqb_list (rq_schema q) (str "rtmp")) eqn:E3; [apply eqb_list_spec in E3|]].
  - destruct (opened =? 0) eqn:Eo; cbn [negb].
    + assert (opened = 0) as -> by lia. rewrite E2. split; [|split].
      { intros f. split; [discriminate|intros (H & _); discriminate]. }
      { split; [|reflexivity]. auto. }
      { intros [H|[(H & _)|H]]; [congruence|discriminate|discriminate]. }
    + split; [|split].
      { intros f. split; [discriminate|intros (H & _); congruence]. }
      { split; [discriminate|]. intros (-> & _). discriminate. }
      { intros _. eexists. reflexivity. }
  - destruct (opened =? 0) eqn:Eo; cbn [negb].
    + assert (opened = 0) as -> by lia. rewrite E3. split; [|split].
      { intros f. split; [discriminate|intros (H & _); discriminate]. }
      { split; [|reflexivity]. auto. }
      { intros [H|[(H & _)|H]]; [congruence|discriminate|discriminate]. }
    + split; [|split].
      { intros f. split; [discriminate|intros (H & _); congruence]. }
      { split; [discriminate|]. intros (-> & _). discriminate. }
      { intros _. eexists. reflexivity. }
  - assert (N2 : rq_schema q <> str "file") by (intros E; rewrite E, eqb_list_refl in E2; discriminate).
    assert (N3 : rq_schema q <> str "rtmp") by (intros E; rewrite E, eqb_list_refl in E3; discriminate).
    split; [|split].
    { intros f. split; [discriminate|intros (H & _); congruence]. }
    { split; [discriminate|]. intros (_ & [H|[H|(H & _)]]); congruence. }
    { intros _. eexists. reflexivity. }
Qed.
Print Assumptions edge_pull_outcomes.
Example edge_pull_case :
  edge_handler input_exts exs_req 0 200 = Ok (EStream (str "flv")) /\
  edge_handler input_exts (mkrq (str "/live/x.m3u8") (str "GET") (str "http") 80 (str "h") (str "/live/x.m3u8") (str "m3u8") [] [] []) 0 200 = UB /\
  edge_handler input_exts (mkrq (str "/live/x") (str "GET") (str "rtmp") 1935 (str "h") (str "/live/x") (str "--") [] [] []) 0 0 = UB.
Proof. repeat split; vm_compute; reflexivity. Qed.

(** ** C128: transport stream over SRT, publisher to player *)
(** Every packet the publisher's reader forwards goes to each SRT player as one
    message, unchanged: the messages a player has been sent are the beginning
    of: the snapshot at its joining, then everything forwarded since; and each
    is one of the publisher's 188-byte packets.  (The library may make it wait
    for room any number of times.) *)
Theorem srt_relay_end_to_end :
  forall shape os s post pre v a name i mem st ds st' fwd rr evs,
  keeps_order shape -> env_ok shape live0 os ->
  play_events shape live0 [] os = (s, post ++ (OPlay v a name, Done) :: pre) -> ~ In (OLeave v, Done) post ->
  owner name pre = Some (i, 1%nat) ->
  ts_run mem st ds = (st', fwd, rr) -> Forall (fun d => zlen d = 188) ds ->
  initial (puts i 1 (post ++ (OPlay v a name, Done) :: pre)) fwd ->
  (forall n, srt_decides (evs n) SsOk) -> ~ In [] (polls v post) ->
  exists n msgs, srt_play (srt_wr evs) (registered pre name) (polls v post) (0%nat, []) = (None, (n, msgs)) /\
    msgs = map p_data (given v post) /\ Forall (fun m => In m ds) msgs /\
    initial (given v post) (ts_snapshot (puts i 1 pre) ++ puts i 1 post).
Proof.
  intros shape os s post pre v a name i mem st ds st' fwd rr evs Hk Henv Hev Hlv Hown Hts H188 Hup Hevs Hnp.
  destruct (viewer_stream _ _ _ _ _ _ _ _ Hk Henv Hev Hlv) as (i' & k & vx & Ho & _ & _ & Hgv).
  rewrite Hown in Ho. injection Ho as <- <-. cbn [snapshot] in Hgv.
  assert (Hin : Forall (fun p => In (p_data p) ds) (given v post)).
  { assert (Hf : Forall (fun p => In (p_data p) ds) fwd).
    { apply Forall_forall. intros p Hp. apply run_forwards in Hts. 
      assert (Hq : In (p_data p) (map p_data fwd)) by (apply in_map; exact Hp).
      clear - Hts Hq. induction Hts; cbn in Hq |- *; intuition. }
    destruct Hup as [z Hz]. rewrite <- Hz, puts_app, puts_skip in Hf. apply Forall_app in Hf as [Hf _]. apply Forall_app in Hf as [Hp1 Hp2].
    assert (HF : Forall (fun p => In (p_data p) ds) (given v post ++ v_queue vx)).
    { rewrite Hgv. apply Forall_app. split; [|exact Hp2]. rewrite Forall_forall in Hp1 |- *.
      intros p Hp. apply Hp1. apply ts_snapshot_in. exact Hp. }
    apply Forall_app in HF. tauto. }
  assert (Hue : forall l : list (list pkt), ~ In [] l -> until_empty l = l).
  { induction l as [|d l IH]; intros Hn; [reflexivity|]. destruct d as [|p d]; [destruct Hn; left; reflexivity|].
    cbn [until_empty]. rewrite IH; [reflexivity|]. intros Hi. apply Hn. right. exact Hi. }
  pose proof (Hue _ Hnp) as Hu.
  destruct (srt_loop evs (fun _ => SsOk) Hevs (polls v post) 0%nat []) as (r & n & msgs & Hl & Hc).
  { rewrite Hu, polls_given. eapply Forall_impl; [|exact Hin]. cbn beta. intros p Hp.
    rewrite Forall_forall in H188. rewrite (H188 _ Hp). lia. }
  rewrite Hu, polls_given in Hc. destruct Hc as [(-> & _ & ->)|[(_ & Hc & _)|(e & m & _ & Hc & _)]]; [|congruence|discriminate].
  exists n, (map p_data (given v post)). unfold srt_play, registered. rewrite Hown. cbn [negb]. rewrite Hl.
  split; [reflexivity|]. split; [reflexivity|]. split; [|exists (v_queue vx); exact Hgv].
  apply Forall_map. exact Hin.
Qed.
Print Assumptions srt_relay_end_to_end.
Definition exs_ds := map ts_bytes [ex_pat; ex_pk 300 0 7 [1]; ex_pmt].
Definition exs_fwd : list pkt := let '(_, o, _) := ts_run [] ts_new exs_ds in o.
Definition exs_sname := TS_PREFIX ++ str "h/live/x".
Definition exs_sos : list op :=
  [OSrtPublish 0 (str "h/live/x")] ++ map (OPut 0 1) exs_fwd ++ [OPlay 0 50 exs_sname; OPoll 0].
Example srt_relay_case :
  env_ok exs_shape live0 exs_sos /\
  (exists given, snd (play_events exs_shape live0 [] exs_sos) =
     [(OPoll 0, Given given)] ++ (OPlay 0 50 exs_sname, Done) ::
     rev ((OSrtPublish 0 (str "h/live/x"), Done) :: map (fun p => (OPut 0 1 p, Done)) exs_fwd) /\
     map p_data given = map ts_bytes [ex_pat; ex_pmt]) /\
  owner exs_sname (rev ((OSrtPublish 0 (str "h/live/x"), Done) :: map (fun p => (OPut 0 1 p, Done)) exs_fwd)) = Some (0%nat, 1%nat) /\
  Forall (fun d => zlen d = 188) exs_ds /\ srt_decides [SsAgain 0; SsOk] SsOk.
Proof.
  split. { apply (env_b_ok0 3). vm_compute. reflexivity. }
  split. { eexists. split; vm_compute; reflexivity. }
  split; [vm_compute; reflexivity|]. split; [repeat constructor|]. split; [discriminate|exists 1%nat; reflexivity].
Qed.
