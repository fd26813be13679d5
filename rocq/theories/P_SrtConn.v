(** C176-C177: whole SRT connections. *)
From Verif Require Import Base M_Text M_IO S_IO L_IO M_Packet M_Flv M_Http M_Conf M_Url S_Url
  L_Url P_Url M_Host M_Cache S_Cache M_Ts S_Ts M_Srt L_TsEx P_Ts M_Live S_Live L_Live L_LiveSet M_Stream S_Stream P_Stream M_SrtConn.

(** C176: what becomes of a connection whose stream id names host, path and mode
    (pairs ended by commas, any four characters first): it plays, publishes or is
    refused, by the host table and the streams there are. *)
Theorem srt_connection_rule : forall lib rt taken hdr pairs rest host path mode,
  url_lib_ok lib -> zlen hdr = 4 -> Forall sid_pair_ok pairs -> without 44 rest -> pairs <> [] ->
  last_value (str "h") pairs (host ++ path) -> url_wf (str "srt") host None (Some path) None ->
  (last_value (str "m") pairs mode \/ (~ In (str "m") (map fst pairs) /\ mode = [])) ->
  let c := srt_conn lib rt true (hdr ++ sid_text pairs ++ rest) taken in
  let known := find_host rt host <> None in
  (forall n, c = Ok (SxPlay n) <-> known /\ mode = str "request" /\ n = str "ts://" ++ host ++ path /\ taken n = true) /\
  (forall n, c = Ok (SxPublish n) <-> known /\ mode <> str "request" /\ n = host ++ path /\ taken n = false) /\
  (exists a, c = Ok a /\ match a with SxRefuse e => e <> 0 | _ => True end).
Proof.
  intros lib rt taken hdr pairs rest host path mode Hlib Hh Hp Hr Hne Hhost Hwf Hmode c known.
  destruct (srt_streamid_exact lib hdr pairs rest host path mode Hlib Hh Hp Hr Hne Hhost Hwf Hmode) as (r & E & K & Rh & Rp & S).
  unfold c, srt_conn. cbn [negb]. rewrite E, Rh. unfold srt_stream_act, srt_ts_key. rewrite K. clear c.
  destruct (find_host rt host) as [h|] eqn:F; unfold known.
  - assert (NK : Some h <> None) by discriminate. destruct (srt_plays r) eqn:P.
    + assert (mode = str "request") as -> by (apply S; reflexivity). destruct (taken (str "ts://" ++ host ++ path)) eqn:T.
      * split; [|split; [|eexists; split; [reflexivity|exact I]]].
        -- intros n. split; [intros [= <-]; auto|intros (_ & _ & -> & _); reflexivity].
        -- intros n. split; [discriminate|intros (_ & Q & _); congruence].
      * split; [|split; [|eexists; split; [reflexivity|discriminate]]].
        -- intros n. split; [discriminate|intros (_ & _ & -> & Q); congruence].
        -- intros n. split; [discriminate|intros (_ & Q & _); congruence].
    + assert (mode <> str "request") by (intros Q; apply S in Q; discriminate). destruct (taken (host ++ path)) eqn:T.
      * split; [|split; [|eexists; split; [reflexivity|discriminate]]].
        -- intros n. split; [discriminate|intros (_ & Q & _); congruence].
        -- intros n. split; [discriminate|intros (_ & _ & -> & Q); congruence].
      * split; [|split; [|eexists; split; [reflexivity|exact I]]].
        -- intros n. split; [discriminate|intros (_ & Q & _); congruence].
        -- intros n. split; [intros [= <-]; auto|intros (_ & _ & -> & _); reflexivity].
  - split; [|split; [|eexists; split; [reflexivity|discriminate]]]; intros n; (split; [discriminate|intros (Q & _); congruence]).
Qed.
Print Assumptions srt_connection_rule.
Definition sx_rt : hrouter := mkrt [(str "live", exs_host (str "source") (str "all"))] [] None.
Example srt_connection_case :
  srt_conn hp_url sx_rt true (str "#!::h=live/x,m=request,u=1") (fun n => eqb_list n (str "ts://live/x")) = Ok (SxPlay (str "ts://live/x")) /\
  srt_conn hp_url sx_rt true (str "#!::m=publish,h=live/x,") (fun _ => false) = Ok (SxPublish (str "live/x")) /\
  srt_conn hp_url sx_rt true (str "#!::h=other/x,m=request,") (fun _ => true) = Ok (SxRefuse ERROR_HOST_NOT_EXISTS).
Proof. repeat split. Qed.

(** C176: a stream id without host pair, too short a one, and a socket that is not
    an SRT socket (an srt block that listens with TCP) are refused whatever streams there are. *)
Theorem srt_connection_refused : forall lib rt taken sid hdr pairs rest,
  (exists c, srt_conn lib rt false sid taken = Ok (SxRefuse c) /\ c <> 0) /\
  (zlen sid < 5 -> exists c, srt_conn lib rt true sid taken = Ok (SxRefuse c) /\ c <> 0) /\
  (url_lib_ok lib -> zlen hdr = 4 -> Forall sid_pair_ok pairs -> without 44 rest -> ~ In (str "h") (map fst pairs) ->
   exists c, srt_conn lib rt true (hdr ++ sid_text pairs ++ rest) taken = Ok (SxRefuse c) /\ c <> 0).
Proof.
  intros lib rt taken sid hdr pairs rest. split; [|split].
  - eexists. split; [reflexivity|discriminate].
  - intros H. unfold srt_conn, srt_req. cbn [negb]. apply Z.ltb_lt in H. rewrite H. eexists. split; [reflexivity|discriminate].
  - intros Hlib Hh Hp Hr Hn. unfold srt_conn. cbn [negb]. rewrite srt_no_host_refused by assumption. eexists. split; [reflexivity|discriminate].
Qed.
Print Assumptions srt_connection_refused.
Example srt_connection_refused_case : srt_conn hp_url sx_rt true (str "#!::r=live/x,m=request,") (fun _ => true) = Ok (SxRefuse ERROR_SRT_STREAM_ID).
Proof. reflexivity. Qed.

(** C177: two clients whose stream ids name the same host and path meet: the one
    that publishes gets the name, and the messages sent to the one that plays are
    transport-stream packets the publisher sent, in order, from the snapshot on;
    an HTTP player finds the demuxed stream under the same host and path with any extension. *)
Theorem srt_clients_meet : forall lib rt host path hdr1 pairs1 rest1 mode1 hdr2 pairs2 rest2 before
  shape os s post pre v a i mem st ds st' fwd rr evs,
  url_lib_ok lib -> url_wf (str "srt") host None (Some path) None -> find_host rt host <> None ->
  zlen hdr1 = 4 -> Forall sid_pair_ok pairs1 -> without 44 rest1 -> pairs1 <> [] -> last_value (str "h") pairs1 (host ++ path) ->
  last_value (str "m") pairs1 mode1 -> mode1 <> str "request" ->
  zlen hdr2 = 4 -> Forall sid_pair_ok pairs2 -> without 44 rest2 -> pairs2 <> [] -> last_value (str "h") pairs2 (host ++ path) ->
  last_value (str "m") pairs2 (str "request") ->
  registered before (host ++ path) = false ->
  keeps_order shape -> env_ok shape live0 os ->
  play_events shape live0 [] os = (s, post ++ (OPlay v a (str "ts://" ++ host ++ path), Done) :: pre) -> ~ In (OLeave v, Done) post ->
  owner (str "ts://" ++ host ++ path) pre = Some (i, 1%nat) ->
  ts_run mem st ds = (st', fwd, rr) -> Forall (fun d => zlen d = 188) ds ->
  initial (puts i 1 (post ++ (OPlay v a (str "ts://" ++ host ++ path), Done) :: pre)) fwd ->
  (forall n, srt_decides (evs n) SsOk) -> ~ In [] (polls v post) ->
  srt_conn lib rt true (hdr1 ++ sid_text pairs1 ++ rest1) (registered before) = Ok (SxPublish (host ++ path)) /\
  exists name n msgs, srt_conn lib rt true (hdr2 ++ sid_text pairs2 ++ rest2) (registered pre) = Ok (SxPlay name) /\
    srt_play (srt_wr evs) (registered pre name) (polls v post) (0%nat, []) = (None, (n, msgs)) /\
    msgs = map p_data (given v post) /\ Forall (fun m => In m ds) msgs /\
    initial (given v post) (ts_snapshot (puts i 1 pre) ++ puts i 1 post).
Proof.
  intros lib rt host path hdr1 pairs1 rest1 mode1 hdr2 pairs2 rest2 before shape os s post pre v a i mem st ds st' fwd rr evs
    Hlib Hwf Hk A1 A2 A3 A4 A5 A6 A7 B1 B2 B3 B4 B5 B6 Hf K1 K2 K3 K4 K5 K6 K7 K8 K9 K10.
  destruct (srt_connection_rule lib rt (registered before) hdr1 pairs1 rest1 host path mode1 Hlib A1 A2 A3 A4 A5 Hwf (or_introl A6)) as (_ & P & _).
  destruct (srt_connection_rule lib rt (registered pre) hdr2 pairs2 rest2 host path _ Hlib B1 B2 B3 B4 B5 Hwf (or_introl B6)) as (Q & _).
  split; [apply P; auto|].
  destruct (srt_relay_end_to_end shape os s post pre v a _ i mem st ds st' fwd rr evs K1 K2 K3 K4 K5 K6 K7 K8 K9 K10) as (n & msgs & R).
  exists (str "ts://" ++ host ++ path), n, msgs. split; [|exact R]. apply Q. repeat split; auto. unfold registered. rewrite K5. reflexivity.
Qed.
Print Assumptions srt_clients_meet.
(** The history of srt_relay_case, reached by stream ids. *)
Example srt_clients_meet_case :
  srt_conn hp_url (mkrt [(str "h", exs_host (str "source") (str "all"))] [] None) true (str "#!::h=h/live/x,m=publish,") (registered []) = Ok (SxPublish (str "h/live/x")) /\
  srt_conn hp_url (mkrt [(str "h", exs_host (str "source") (str "all"))] [] None) true (str "1234m=request,h=h/live/x,r=0,")
    (registered (rev ((OSrtPublish 0 (str "h/live/x"), Done) :: map (fun p => (OPut 0 1 p, Done)) exs_fwd))) = Ok (SxPlay exs_sname).
Proof. split; vm_compute; reflexivity. Qed.

(** C177: an HTTP player of the same host and path, whatever the extension, asks for the SRT publisher's name. *)
Theorem srt_http_same_name : forall lib host p e port query,
  url_lib_ok lib -> url_wf (str "http") host port (Some (p ++ 46 :: e)) query -> without 46 e -> e <> [] -> e <> str "-" -> zlen (p ++ 46 :: e) < 2 ^ 64 ->
  forall rt taken hdr pairs rest mode, zlen hdr = 4 -> Forall sid_pair_ok pairs -> without 44 rest -> pairs <> [] ->
  last_value (str "h") pairs (host ++ p) -> url_wf (str "srt") host None (Some p) None -> last_value (str "m") pairs mode ->
  forall n, srt_conn lib rt true (hdr ++ sid_text pairs ++ rest) taken = Ok (SxPublish n) ->
  exists r, url_from lib (url_text (str "http") host port (Some (p ++ 46 :: e)) query) = (Ok 0, r) /\ cache_key r = n.
Proof.
  intros lib host p e port query Hlib Hwf H1 H2 H3 H4 rt taken hdr pairs rest mode A1 A2 A3 A4 A5 A6 A7 n E.
  destruct (srt_connection_rule lib rt taken hdr pairs rest host p mode Hlib A1 A2 A3 A4 A5 A6 (or_introl A7)) as (_ & P & _).
  apply P in E. destruct E as (_ & _ & -> & _). apply stream_key_exact; auto. discriminate.
Qed.
Print Assumptions srt_http_same_name.
Example srt_http_same_name_case : fst (url_from hp_url (str "http://live:8080/x.flv?t=1")) = Ok 0 /\
  srt_conn hp_url sx_rt true (str "#!::h=live/x,m=publish,") (fun _ => false) = Ok (SxPublish (cache_key (snd (url_from hp_url (str "http://live:8080/x.flv?t=1"))))).
Proof. split; vm_compute; reflexivity. Qed.

(** C176: a player's connection that ends does so with an error (the server would
    otherwise serve the same connection again), and a player of a stream that is
    not there is sent nothing. *)
Theorem srt_player_ends : forall evs present dumps w c w',
  srt_play (srt_wr evs) present dumps w = (Some (Ok c), w') -> c <> 0 /\ (present = false -> w' = w).
Proof.
  intros evs present dumps w c w'. unfold srt_play. destruct present; cbn [negb].
  2: { intros [= <- <-]. split; [discriminate|reflexivity]. }
  destruct (enc_loop (srt_wr evs) XRaw dumps w) as [[r x] w1] eqn:E. intros [= -> ->]. split; [|discriminate].
  assert (M : forall l r l', srt_sendmsg l = (r, l') -> forall e, r = Err e -> e <> 0).
  { induction l as [|[|a|] l IH]; cbn [srt_sendmsg]; intros r0 l0 H e; [injection H as <- <-; discriminate|injection H as <- <-; discriminate| |injection H as <- <-; intros [= <-]; discriminate].
    destruct (Z.eqb_spec a 0); [eapply IH; exact H|]. injection H as <- <-. intros [= <-]. assumption. }
  assert (W : forall n l d ms e, st_srt_write n l d = (ms, Err e) -> e <> 0).
  { induction n as [|n IH]; cbn [st_srt_write]; intros l d ms e H; [discriminate|]. destruct d as [|b d]; [discriminate|].
    destruct (srt_sendmsg l) as [[u|e1| |] l1] eqn:S; try discriminate; [|injection H as _ <-; eapply M; [exact S|reflexivity]].
    match type of H with (let '(_, _) := ?t in _) = _ => destruct t as [ms1 r1] eqn:R end. injection H as _ ->. eapply IH. exact R. }
  assert (B : forall ps y w2 e x2 w3, enc_batch (srt_wr evs) y ps w2 = (Err e, x2, w3) -> y = XRaw -> e <> 0).
  { induction ps as [|p ps IH]; cbn [enc_batch]; intros y w2 e x2 w3 H ->; [discriminate|]. cbn [mux_packet] in H. unfold srt_wr in H at 1.
    destruct (srt_write (evs (fst w2)) (p_data p)) as [ms [u|e1| |]] eqn:S; try discriminate; [eapply IH; [exact H|reflexivity]|]. injection H as <- _ _. eapply W. exact S. }
  assert (K : forall ps y w2 u x2 w3, enc_batch (srt_wr evs) y ps w2 = (Ok u, x2, w3) -> y = XRaw -> x2 = XRaw).
  { induction ps as [|p ps IH]; cbn [enc_batch]; intros y w2 u x2 w3 H ->; [injection H as _ <- _; reflexivity|]. cbn [mux_packet] in H. unfold srt_wr in H at 1.
    destruct (srt_write (evs (fst w2)) (p_data p)) as [ms [u1|e1| |]] eqn:S; try discriminate. eapply IH; [exact H|reflexivity]. }
  assert (L : forall ds y w2 x2 w3, enc_loop (srt_wr evs) y ds w2 = (Some (Ok c), x2, w3) -> y = XRaw -> c <> 0).
  { induction ds as [|[|p ps] ds IH]; cbn [enc_loop]; intros y w2 x2 w3 H Hy; [discriminate|injection H as <- _ _; discriminate|].
    destruct (enc_batch (srt_wr evs) y (p :: ps) w2) as [[[u|e1| |] x3] w4] eqn:S; try discriminate.
    - eapply IH; [exact H|]. eapply K; eassumption.
    - injection H as <- _ _. eapply B; eassumption. }
  eapply L; [exact E|reflexivity].
Qed.
Print Assumptions srt_player_ends.
Example srt_player_ends_case : srt_play (srt_wr (fun _ => [SsFail])) true [[mkpkt 0 0 0 0 0 0 0 [71]]] (0%nat, []) = (Some (Ok (-1)), (1%nat, [])) /\
  srt_play (srt_wr (fun _ => [])) false [] (0%nat, []) = (Some (Ok ERROR_RTMP_HAS_SOURCE), (0%nat, [])).
Proof. split; reflexivity. Qed.
