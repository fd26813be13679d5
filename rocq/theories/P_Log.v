(** Properties of the log: what a line shows, and what a client's text can do
    to it. *)
From Verif Require Import Base M_Text M_Log S_Log L_Log.

Definition ex_t : stamp := mkstamp 2026 11 16 9 5 7 42.
Definition ex_w : where_ := mkwhere (str "sps_http_phase_handler.cpp") 52 17.

(** C169: every statement made of words, strings and numbers whose text has no
    percent sign comes out as the time and that text, cut at 4095 characters;
    nothing longer is ever written. *)
Theorem log_prints_text t ps :
  stamp_ok t -> Forall piece_ok ps -> no_percent (text_of ps) ->
  log_printf (Some t) (flat_map fmt_of1 ps) (flat_map args_of1 ps) = Ok (take 4095 (stamp_str t ++ text_of ps)).
Proof.
  intros Ht Hp Hn. rewrite log_core by assumption. apply plain_ok. apply doubled_plain.
  intros I. apply take_in in I. revert I. apply no_percent_app; [apply stamp_pct; exact Ht|exact Hn].
Qed.
Print Assumptions log_prints_text.

Example log_prints_text_ex :
  log_printf (Some ex_t) (str "listen %d on %s") [AInt (-3); AStr (str "eth0")]
  = Ok (str "[2026-11-16 09:05:07.042] listen -3 on eth0").
Proof. vm_compute. reflexivity. Qed.

Example log_prints_long_ex :
  log_printf (Some ex_t) (flat_map fmt_of1 [PWords (str "dts "); PLong (-5000000000); PWords (str " size "); PUns 4294967295])
    [AInt (-5000000000); AInt 4294967295]
  = Ok (str "[2026-11-16 09:05:07.042] dts -5000000000 size 4294967295").
Proof. vm_compute. reflexivity. Qed.

Example log_prints_columns_ex :
  log_printf (Some ex_t) (flat_map fmt_of1 [PWords (str "dts:"); PWide 11 (-40); PWords (str ", cts:"); PWide 1 345])
    [AInt (-40); AInt 345]
  = Ok (str "[2026-11-16 09:05:07.042] dts:        -40, cts:345").
Proof. vm_compute. reflexivity. Qed.

(** C169: the exact rule.  What is printed is the text with every pair of
    percent signs made one; a statement whose text, cut at 4095 characters,
    has a percent sign outside a pair is undefined behaviour. *)
Theorem log_defined_iff t ps :
  stamp_ok t -> Forall piece_ok ps ->
  (forall u, log_printf (Some t) (flat_map fmt_of1 ps) (flat_map args_of1 ps) = Ok u
             <-> doubled (take 4095 (stamp_str t ++ text_of ps)) u)
  /\ ((forall u, ~ doubled (take 4095 (stamp_str t ++ text_of ps)) u) ->
      log_printf (Some t) (flat_map fmt_of1 ps) (flat_map args_of1 ps) = UB)
  /\ (forall u, log_printf (Some t) (flat_map fmt_of1 ps) (flat_map args_of1 ps) = Ok u -> zlen u <= 4095).
Proof.
  intros Ht Hp. rewrite log_core by assumption. change (LOG_BUF - 1) with 4095. split; [|split].
  - intros u. apply plain_iff.
  - intros H. destruct (plain_total (take 4095 (stamp_str t ++ text_of ps))) as [[u D]|E]; [destruct (H u D)|exact E].
  - intros u E. apply plain_iff in E. apply doubled_len in E. pose proof (take_len 4095 (stamp_str t ++ text_of ps)). lia.
Qed.
Print Assumptions log_defined_iff.

Example log_defined_iff_ex :
  log_printf (Some ex_t) (str "at %s") [AStr (str "100%% of it")] = Ok (str "[2026-11-16 09:05:07.042] at 100% of it")
  /\ log_printf (Some ex_t) (str "at %s") [AStr (str "100% of it")] = UB.
Proof. vm_compute. split; reflexivity. Qed.

(** C169: the lines about clients.  For all addresses, names and texts without
    NUL, each statement prints its line with the client's text in it, under the
    rule above. *)
Theorem client_lines t w :
  stamp_ok t -> where_ok w ->
  (forall ip port method host url params chunked cl u,
     no_nul ip -> is_int port -> no_nul method -> no_nul host -> no_nul url -> no_nul params -> is_int cl ->
     log_http (Some t) w ip port method host url params chunked cl = Ok u <->
     doubled (take 4095 (stamp_str t ++ where_text w ++ http_before ip port method host ++ url ++ http_after params chunked cl)) u)
  /\ (forall eno etext host u, is_int eno -> no_nul etext -> no_nul host ->
     log_no_host (Some t) w eno etext host = Ok u <->
     doubled (take 4095 (stamp_str t ++ where_text w ++ str "Not found host:" ++ host ++ no_host_after eno etext)) u)
  /\ (forall ip port tc u, no_nul ip -> is_int port -> no_nul tc ->
     log_rtmp (Some t) w ip port tc = Ok u <->
     doubled (take 4095 (stamp_str t ++ where_text w ++ rtmp_before ip port ++ tc ++ crlf2)) u)
  /\ (forall name playing u, no_nul name -> is_int playing ->
     log_play (Some t) w name playing = Ok u <->
     doubled (take 4095 (stamp_str t ++ where_text w ++ str "Play stream /" ++ name ++ play_after playing)) u)
  /\ (forall name kind playing u, no_nul name -> no_nul kind -> is_int playing ->
     log_publish (Some t) w name kind playing = Ok u <->
     doubled (take 4095 (stamp_str t ++ where_text w ++ str "Publish stream /" ++ name ++ publish_after kind playing)) u)
  /\ (forall sid url mode u, no_nul sid -> no_nul url -> no_nul mode ->
     log_srt (Some t) w sid url mode = Ok u <->
     doubled (take 4095 (stamp_str t ++ where_text w ++ str "success parse srt streamid " ++ sid ++ srt_after url mode)) u).
Proof.
  intros Ht Hw. repeat match goal with |- _ /\ _ => split end; intros.
  - rewrite http_core by assumption. apply plain_iff.
  - rewrite no_host_core by assumption. apply plain_iff.
  - rewrite rtmp_core by assumption. apply plain_iff.
  - rewrite play_core by assumption. apply plain_iff.
  - rewrite publish_core by assumption. apply plain_iff.
  - rewrite srt_core by assumption. apply plain_iff.
Qed.
Print Assumptions client_lines.

Example client_lines_ex :
  log_http (Some ex_t) ex_w (str "10.0.0.9") 51812 (str "GET") (str "live.example") (str "/live/a.flv") [] false (-1)
  = Ok (str "[2026-11-16 09:05:07.042] [sps_http_phase_handler.cpp:52] [17] Request 10.0.0.9:51812 GET live.example /live/a.flv , chunked 0, content-length -1" ++ [13; 10]).
Proof. vm_compute. reflexivity. Qed.

(** C170: "the text of a request is only shown in the log" is false: a plain
    percent-encoded blank in a URL is undefined behaviour. *)
Theorem request_log_defined_refuted :
  exists url, log_http (Some ex_t) ex_w (str "10.0.0.9") 51812 (str "GET") (str "live.example") url [] false (-1) = UB
    /\ url = str "/live/a%20b.flv".
Proof. eexists. split; [|reflexivity]. vm_compute. reflexivity. Qed.
Print Assumptions request_log_defined_refuted.

(** C170: and it is so for every client text.  Whatever stands in front of it
    in the line, the first percent sign of a URL, an unknown host, an RTMP url
    or stream name or an SRT stream id that is not followed by a second one
    makes the statement undefined, if it stands within the first 4095
    characters of the line. *)
Theorem client_percent_ub t w a c b :
  stamp_ok t -> where_ok w -> no_nul (a ++ 37 :: c :: b) -> no_percent a -> c <> 37 ->
  (forall ip port method host params chunked cl,
     no_nul ip -> is_int port -> no_nul method -> no_nul host -> no_nul params -> is_int cl ->
     no_percent ip -> no_percent method -> no_percent host ->
     zlen (stamp_str t ++ where_text w ++ http_before ip port method host ++ a) < 4095 ->
     log_http (Some t) w ip port method host (a ++ 37 :: c :: b) params chunked cl = UB)
  /\ (forall eno etext, is_int eno -> no_nul etext ->
     zlen (stamp_str t ++ where_text w ++ str "Not found host:" ++ a) < 4095 ->
     log_no_host (Some t) w eno etext (a ++ 37 :: c :: b) = UB)
  /\ (forall ip port, no_nul ip -> is_int port -> no_percent ip ->
     zlen (stamp_str t ++ where_text w ++ rtmp_before ip port ++ a) < 4095 ->
     log_rtmp (Some t) w ip port (a ++ 37 :: c :: b) = UB)
  /\ (forall playing, is_int playing ->
     zlen (stamp_str t ++ where_text w ++ str "Play stream /" ++ a) < 4095 ->
     log_play (Some t) w (a ++ 37 :: c :: b) playing = UB)
  /\ (forall kind playing, no_nul kind -> is_int playing ->
     zlen (stamp_str t ++ where_text w ++ str "Publish stream /" ++ a) < 4095 ->
     log_publish (Some t) w (a ++ 37 :: c :: b) kind playing = UB)
  /\ (forall url mode, no_nul url -> no_nul mode ->
     zlen (stamp_str t ++ where_text w ++ str "success parse srt streamid " ++ a) < 4095 ->
     log_srt (Some t) w (a ++ 37 :: c :: b) url mode = UB).
Proof.
  intros Ht Hw Hn Ha Hc.
  assert (St : no_percent (stamp_str t)) by (apply stamp_pct; exact Ht).
  assert (Wh : no_percent (where_text w)) by (apply where_pct; exact Hw).
  assert (K : forall pre post, no_percent pre -> zlen (stamp_str t ++ where_text w ++ pre ++ a) < 4095 ->
    cfmt (take 4095 (stamp_str t ++ where_text w ++ pre ++ (a ++ 37 :: c :: b) ++ post)) [] = UB).
  { intros pre post Hp Hl.
    replace (stamp_str t ++ where_text w ++ pre ++ (a ++ 37 :: c :: b) ++ post)
      with ((stamp_str t ++ where_text w ++ pre ++ a) ++ 37 :: c :: (b ++ post)) by (rewrite <- !app_assoc; reflexivity).
    apply take_percent; [|exact Hc|exact Hl]. pct. }
  repeat match goal with |- _ /\ _ => split end; intros.
  - rewrite http_core by assumption. apply K; [|assumption]. unfold http_before. pct.
  - rewrite no_host_core by assumption. apply K; [|assumption]. pct.
  - rewrite rtmp_core by assumption. apply K; [|assumption]. unfold rtmp_before. pct.
  - rewrite play_core by assumption. apply K; [|assumption]. pct.
  - rewrite publish_core by assumption. apply K; [|assumption]. pct.
  - rewrite srt_core by assumption. apply K; [|assumption]. pct.
Qed.
Print Assumptions client_percent_ub.

Example client_percent_ub_ex :
  stamp_ok ex_t /\ where_ok ex_w /\ no_nul (str "live/" ++ 37 :: 69 :: str "4") /\ no_percent (str "live/")
  /\ zlen (stamp_str ex_t ++ where_text ex_w ++ str "Play stream /" ++ str "live/") < 4095
  /\ log_play (Some ex_t) ex_w (str "live/%E4%BD%A0") 0 = UB.
Proof.
  split; [unfold stamp_ok; cbn; lia|]. split; [split; [apply lit_pct; reflexivity|split; [|split; unfold is_int; cbn; lia]]|].
  - intros I. cbn in I. repeat (destruct I as [I|I]; [discriminate|]). exact I.
  - split; [intros I; cbn in I; repeat (destruct I as [I|I]; [discriminate|]); exact I|]. split; [apply lit_pct; reflexivity|].
    split; vm_compute; reflexivity.
Qed.

(** C171: "every statement writes a line of its own" is false for long texts:
    whenever a request's line is longer than 4095 characters and its first
    4095 hold neither a percent sign nor a line end, no line end is written. *)
Theorem long_line_unfinished t w ip port method host url params chunked cl :
  stamp_ok t -> where_ok w ->
  no_nul ip -> is_int port -> no_nul method -> no_nul host -> no_nul url -> no_nul params -> is_int cl ->
  no_percent ip -> no_percent method -> no_percent host -> no_percent url ->
  ~ In 10 (w_file w ++ ip ++ method ++ host ++ url) ->
  4095 <= zlen (stamp_str t ++ where_text w ++ http_before ip port method host ++ url) ->
  exists u, log_http (Some t) w ip port method host url params chunked cl = Ok u /\ zlen u = 4095 /\ ~ In 10 u.
Proof.
  intros Ht Hw H1 H2 H3 H4 H5 H6 H7 P1 P2 P3 P4 NL Hlen. rewrite http_core by assumption.
  set (line := stamp_str t ++ where_text w ++ http_before ip port method host ++ url) in *.
  assert (E : take 4095 (stamp_str t ++ where_text w ++ http_before ip port method host ++ url ++ http_after params chunked cl) = take 4095 line).
  { replace (stamp_str t ++ where_text w ++ http_before ip port method host ++ url ++ http_after params chunked cl)
      with (line ++ http_after params chunked cl) by (unfold line; rewrite <- !app_assoc; reflexivity).
    unfold take, zlen in *. rewrite firstn_app. replace (Z.to_nat 4095 - length line)%nat with O by lia. cbn [firstn]. apply app_nil_r. }
  rewrite E. exists (take 4095 line). split; [|split].
  - apply plain_ok, doubled_plain. intros I. apply take_in in I. revert I. unfold line, http_before.
    assert (no_percent (stamp_str t)) by (apply stamp_pct; exact Ht). assert (no_percent (where_text w)) by (apply where_pct; exact Hw). pct.
  - unfold take, zlen in *. rewrite firstn_length. lia.
  - intros I. apply take_in in I. unfold line, where_text, http_before in I.
    assert (D : forall n, ~ In 10 (decs n)). { intros n I'. pose proof (dec_chars n) as F. rewrite Forall_forall in F. specialize (F _ I'). lia. }
    assert (S10 : ~ In 10 (stamp_str t)).
    { intros I'. unfold stamp_str, stamp_text, four, three in I'. destruct Ht as (T1 & T2 & T3 & T4 & T5 & T6 & T7).
      assert (Tw : forall n, 0 <= n < 100 -> ~ In 10 (two n)).
      { intros n Hn I''. pose proof (two_chars n Hn) as F. rewrite Forall_forall in F. specialize (F _ I''). lia. }
      repeat (rewrite in_app_iff in I'). cbn [In] in I'.
      assert (0 <= t_year t / 100 < 100) by (split; [apply Z.div_pos|apply Z.div_lt_upper_bound]; lia).
      pose proof (Z.mod_pos_bound (t_year t) 100 ltac:(lia)). pose proof (Z.mod_pos_bound (t_ms t) 100 ltac:(lia)).
      assert (0 <= t_ms t / 100) by (apply Z.div_pos; lia).
      pose proof (Tw _ T2). pose proof (Tw _ T3). pose proof (Tw _ T4). pose proof (Tw _ T5). pose proof (Tw _ T6).
      pose proof (Tw (t_year t / 100) ltac:(lia)). pose proof (Tw (t_year t mod 100) ltac:(lia)). pose proof (Tw (t_ms t mod 100) ltac:(lia)).
      change (In 10 (str "[")) with (91 = 10 \/ False) in I'. change (In 10 (str "-")) with (45 = 10 \/ False) in I'.
      change (In 10 (str " ")) with (32 = 10 \/ False) in I'. change (In 10 (str ":")) with (58 = 10 \/ False) in I'.
      change (In 10 (str ".")) with (46 = 10 \/ False) in I'. change (In 10 (str "] ")) with (93 = 10 \/ 32 = 10 \/ False) in I'.
      intuition lia. }
    rewrite !in_app_iff in NL. repeat (rewrite in_app_iff in I).
    assert (L1 : forall s, existsb (Z.eqb 10) s = false -> ~ In 10 s).
    { intros s F I'. assert (existsb (Z.eqb 10) s = true) by (apply existsb_exists; exists 10; split; [exact I'|reflexivity]). congruence. }
    pose proof (L1 (str "[") eq_refl). pose proof (L1 (str ":") eq_refl). pose proof (L1 (str "] [") eq_refl). pose proof (L1 (str "] ") eq_refl).
    pose proof (L1 (str "Request ") eq_refl). pose proof (L1 (str " ") eq_refl).
    pose proof (D (w_line w)). pose proof (D (w_ctx w)). pose proof (D port). tauto.
Qed.
Print Assumptions long_line_unfinished.

Example long_line_unfinished_ex :
  exists u, log_http (Some ex_t) ex_w (str "10.0.0.9") 51812 (str "GET") (str "live.example") (47 :: repeat 97 (Z.to_nat 5000)) [] false (-1) = Ok u
    /\ zlen u = 4095 /\ existsb (Z.eqb 10) u = false.
Proof. eexists. split; [vm_compute; reflexivity|]. split; vm_compute; reflexivity. Qed.

(** C171: and false for stream names with line ends: a player can put any line
    of its choice, without percent signs and NULs, into the log. *)
Theorem log_line_forged t w line playing :
  stamp_ok t -> where_ok w -> no_nul line -> no_percent line -> is_int playing ->
  zlen (stamp_str t ++ where_text w ++ str "Play stream /" ++ crlf2 ++ line ++ crlf2 ++ play_after playing) <= 4095 ->
  exists name before after,
    log_play (Some t) w name playing = Ok (before ++ crlf2 ++ line ++ crlf2 ++ after).
Proof.
  intros Ht Hw Hn Hp Hi Hl. exists (crlf2 ++ line ++ crlf2), (stamp_str t ++ where_text w ++ str "Play stream /"), (play_after playing).
  assert (C : no_nul crlf2) by (intros I; cbn in I; repeat (destruct I as [I|I]; [discriminate|]); exact I).
  rewrite play_core; [|exact Ht|exact Hw|repeat first [assumption|apply no_nul_app]|exact Hi].
  rewrite <- !app_assoc. rewrite take_all by exact Hl. apply plain_ok, doubled_plain.
  assert (no_percent (stamp_str t)) by (apply stamp_pct; exact Ht). assert (no_percent (where_text w)) by (apply where_pct; exact Hw).
  unfold play_after. pct.
Qed.
Print Assumptions log_line_forged.

Example log_line_forged_ex :
  log_play (Some ex_t) (mkwhere (str "x.cpp") 225 3)
    (str "a" ++ crlf2 ++ str "[2026-11-16 09:05:07.042] [sps_main_sps.cpp:1] [0] all is well" ++ crlf2) 0
  = Ok (str "[2026-11-16 09:05:07.042] [x.cpp:225] [3] Play stream /a" ++ crlf2 ++
        str "[2026-11-16 09:05:07.042] [sps_main_sps.cpp:1] [0] all is well" ++ crlf2 ++ str ", playing: 0" ++ crlf2).
Proof. vm_compute. reflexivity. Qed.
