(** How long clients may take: recv_timeout and send_timeout. *)
From Verif Require Import Base M_IO S_IO M_Text S_Url L_Url M_Conf S_Conf L_Conf P_Conf M_Http S_Http L_Http L_Http2 L_Http3 P_Http M_Tls S_Tls M_Https S_Https L_Https M_Packet M_Flv S_Flv P_Flv M_Upload S_Upload P_Upload
  M_Host M_Shipped S_Shipped L_Shipped M_Clock S_Clock L_Clock.

(** ** C214 *)

(** A client that never lets the limit pass without sending is served as if
    there were no clock: its timing decides only how its bytes are cut. *)
Theorem timely_client_served : forall A tie T c (p : prog A) now evs, comes now evs c -> no_gap T now evs ->
  exists cs t1 a t r, nonempty_chunks cs /\ concat cs = bytes_of evs /\
    run_clock tie (Some T) p now evs = Some (a, t, r) /\ run_plain p (mktr cs c) = (Ok a, t1) /\ t_stream t1 = bytes_of r.
Proof.
  intros A tie T c p now evs HC HG. rewrite (run_timely tie T c p now now evs (Z.le_refl _) HC HG).
  exact (run_cut tie c p now now evs (Z.le_refl _) HC).
Qed.
Print Assumptions timely_client_served.

(** So an upload may last for ever, if only something comes in time. *)
Theorem timely_upload_published : forall tie T c now evs framing fill h wire more ps,
  comes now evs c -> no_gap T now evs -> bytes_of evs = h ++ wire -> is_head h -> zlen h <= MAX_HEADER ->
  15 <= zlen fill < 2 ^ 24 -> Forall (flv_transportable (zlen fill)) ps ->
  framed (framing h) wire ([0x46; 0x4C; 0x56; 1; 5; 0; 0; 0; 9] ++ flv_layout 0 ps) more ->
  exists t r, run_clock tie (Some T) (upload_prog framing (S (length ps)) fill) now evs = Some (Ok (h, ps, Err ERROR_HTTP_RES_EOF), t, r).
Proof.
  intros tie T c now evs framing fill h wire more ps HC HG HB Hh Hm Hc HF Hf.
  destruct (timely_client_served _ tie T c (upload_prog framing (S (length ps)) fill) now evs HC HG) as (cs & t1 & a & t & r & C1 & C2 & C3 & C4 & C5).
  rewrite HB in C2.
  pose proof (http_flv_upload_published framing fill (mktr cs c) h wire more ps C1 Hh Hm C2 Hc HF Hf) as K.
  rewrite C4 in K. injection K as ->. exists t, r. exact C3.
Qed.
Print Assumptions timely_upload_published.

(** Ten-second limit; the client sends its request and its stream in three parts. *)
Definition ex_evs : list arr :=
  [(5, PBytes (take 10 ex_post)); (9000000, PBytes (drop 10 ex_post ++ take 3 ex_chunks)); (18000000, PBytes (drop 3 ex_chunks)); (18000001, PEnd ERROR_SOCKET_CLOSED)].
Example ex_timely : comes 0 ex_evs ERROR_SOCKET_CLOSED /\ no_gap 10000000 0 ex_evs /\ bytes_of ex_evs = ex_post ++ ex_chunks /\
  run_clock false (Some 10000000) (upload_prog (fun _ => (true, -1)) 9 (repeat 0 64)) 0 ex_evs
  = Some (Ok (ex_post, flv_ex_packets, Err ERROR_HTTP_RES_EOF), 18000000, [(18000001, PEnd ERROR_SOCKET_CLOSED)]).
Proof.
  split; [cbn; repeat split; try lia; discriminate|]. split; [cbn; repeat split; lia|]. split; vm_compute; reflexivity.
Qed.

(** ** C215 *)

(** With a limit, reading always ends, at most the limit after the client's last
    sign of life.  (The program must ask for at least one byte each time and give
    up at the first error: [request_prog] and the rest of C143 do.) *)
Theorem silent_client_let_go : forall A tie T (p : prog A) now evs, 0 <= T -> reads_ok p -> parts evs ->
  exists a t r, run_clock tie (Some T) p now evs = Some (a, t, r) /\ t <= latest now evs + T.
Proof. intros A tie T p now evs HT Hp HP. exact (run_ends tie T p HT Hp now evs HP). Qed.
Print Assumptions silent_client_let_go.

(** Without one, a client that sends nothing is waited for for ever. *)
Theorem silent_client_kept : forall A tie n k ke now, 0 < n -> run_clock (A := A) tie None (PRead n k ke) now [] = None.
Proof. intros A tie n k ke now Hn. cbn. unfold tk_read. destruct (Z.leb_spec n 0); [lia|reflexivity]. Qed.
Print Assumptions silent_client_kept.

Example ex_silent : reads_ok (request_prog (fun _ => (false, 5)) [5]) /\
  run_clock true (Some 10000000) (request_prog (fun _ => (false, 5)) [5]) 0 [(7, PBytes (str "GET / HT"))]
  = Some (Err (- ERROR_SOCKET_TIMEOUT), 10000007, []) /\
  run_clock true None (head_prog MAX_HEADER) 0 [] = None.
Proof. split; [apply request_okp; [repeat constructor|intros h; right; right; cbn; lia]|]. split; vm_compute; reflexivity. Qed.

(** ** C216 *)

(** The head of a request is there, or given up, after 2048 times the limit. *)
Theorem head_time_bound : forall tie T now evs, 0 <= T -> parts evs ->
  exists a t r, run_clock tie (Some T) (head_prog MAX_HEADER) now evs = Some (a, t, r) /\ t <= now + T * 2048.
Proof. intros tie T now evs HT HP. exact (run_asks tie T (head_prog MAX_HEADER) 2048 HT (head_asks 2048 ltac:(lia)) now evs HP). Qed.
Print Assumptions head_time_bound.

(** And nearly that long it can take: a client that sends its head byte by byte,
    each just in time, is served in the end. *)
Theorem slow_head_is_served : forall tie T now h c, 2 <= T -> is_head h -> zlen h <= MAX_HEADER ->
  exists t r, run_clock tie (Some T) (head_prog MAX_HEADER) now (drip (T - 1) now h c) = Some (Ok h, t, r) /\ now + (T - 1) * zlen h <= t.
Proof. exact slow_head. Qed.
Print Assumptions slow_head_is_served.

Example ex_slow : is_head ex_head /\ parts (drip 9999999 0 ex_head ERROR_SOCKET_CLOSED) /\
  match run_clock false (Some 10000000) (head_prog MAX_HEADER) 0 (drip 9999999 0 ex_head ERROR_SOCKET_CLOSED) with
  | Some (r, t, _) => r = Ok ex_head /\ t = 9999999 * zlen ex_head
  | None => False
  end.
Proof.
  split; [exact ex_head_ok|]. split; [|vm_compute; split; reflexivity].
  intros t d H. vm_compute in H. repeat (destruct H as [H|H]; [injection H as <- <-; discriminate|]). 
  repeat (destruct H as [H|H]; [discriminate|]). destruct H.
Qed.

(** ** C217 *)

(** A viewer whose connection takes something in every interval of the limit is
    sent everything, however slowly. *)
Theorem draining_viewer_kept : forall tie T now room evs datas, 0 <= room -> drains T now evs ->
  Forall (fun d => d <> []) datas -> zlen (concat datas) <= room + total_room evs ->
  exists t, tcp_puts tie (Some T) now room evs datas = Some (Ok tt, concat datas, t).
Proof. intros tie T now room evs datas Hr HD Hn Hl. exact (puts_drained tie T datas evs now now room (Z.le_refl _) Hr HD Hn Hl). Qed.
Print Assumptions draining_viewer_kept.

(** One whose connection takes nothing for as long as the limit is let go; it has
    been sent the beginning of what was to be sent, and nothing else. *)
Theorem stuck_viewer_let_go : forall tie T now room evs datas, 0 <= T ->
  exists x sent t, tcp_puts tie (Some T) now room evs datas = Some (x, sent, t) /\ t <= latest_room now evs + T /\
    (exists rest, concat datas = sent ++ rest) /\ (x = Ok tt -> sent = concat datas).
Proof. intros tie T now room evs datas HT. exact (puts_end tie T HT datas evs now room). Qed.
Print Assumptions stuck_viewer_let_go.

(** A piece of no bytes ends the sending: the write of nothing is a failure. *)
Theorem empty_piece_ends_viewer : forall tie lim now room evs ds,
  tcp_puts tie lim now room evs ([] :: ds) = Some (Err ERROR_SOCKET_WRITE, [], now).
Proof. reflexivity. Qed.
Print Assumptions empty_piece_ends_viewer.

Example ex_drain : drains 100 0 [(50, 3); (140, 1); (200, 9)] /\
  tcp_puts false (Some 100) 0 2 [(50, 3); (140, 1); (200, 9)] [[1; 2; 3]; [4; 5; 6; 7]; [8]] = Some (Ok tt, [1; 2; 3; 4; 5; 6; 7; 8], 200) /\
  tcp_puts false (Some 100) 0 2 [(50, 3)] [[1; 2; 3]; [4; 5; 6; 7]; [8]] = Some (Err ERROR_SOCKET_TIMEOUT, [1; 2; 3; 4; 5], 150).
Proof. split; [cbn; lia|]. split; vm_compute; reflexivity. Qed.

(** ** C218 *)

(** A server block that says nothing about them has no limits; a number is taken
    as microseconds. *)
Theorem limits_of_server : forall ns body m k,
  k = str "recv_timeout" \/ k = str "send_timeout" -> block_of (EBlock (str "server") ns body) = [m] ->
  ((forall vs, ~ In (EItem k vs) body) -> limit_of (conf_limit m k) = None) /\
  (forall a b ds, body = a ++ EItem k [ds] :: b -> (forall vs, ~ In (EItem k vs) b) -> ds <> [] ->
     Forall (fun c => 48 <= c <= 57) ds -> dec_value ds 0 < 2 ^ 63 -> limit_of (conf_limit m k) = Some (dec_value ds 0)) /\
  (forall a b, body = a ++ EItem k [str "-1"] :: b -> (forall vs, ~ In (EItem k vs) b) -> limit_of (conf_limit m k) = None) /\
  (forall a b, body = a ++ EItem k [] :: b -> (forall vs, ~ In (EItem k vs) b) -> limit_of (conf_limit m k) = Some 0).
Proof.
  intros ns body m k Hk Hb. split; [|split; [|split]].
  - intros Hno. unfold conf_limit. rewrite (conf_option_default (str "server") ns body k (str "-1") m).
    + reflexivity.
    + left. split; [reflexivity|]. destruct Hk as [-> | ->]; tauto.
    + exact Hno.
    + exact Hb.
  - intros a b ds -> Hno Hne Hd Hlt. unfold conf_limit.
    rewrite (conf_option_last (str "server") ns a k [ds] b m).
    2: { destruct Hk as [-> | ->]; discriminate. }
    2: exact Hno. 2: exact Hb.
    cbn [spaced]. destruct (atoll_number ds Hne Hd Hlt) as (H0 & E).
    destruct ds as [|c ds]; [contradiction|]. rewrite E. unfold u64, limit_of. rewrite Z.mod_small by lia.
    destruct (Z.eqb_spec (dec_value (c :: ds) 0) (2 ^ 64 - 1)); [lia|reflexivity].
  - intros a b -> Hno. unfold conf_limit.
    rewrite (conf_option_last (str "server") ns a k [str "-1"] b m); [reflexivity| |exact Hno|exact Hb].
    destruct Hk as [-> | ->]; discriminate.
  - intros a b -> Hno. unfold conf_limit.
    rewrite (conf_option_last (str "server") ns a k [] b m); [reflexivity| |exact Hno|exact Hb].
    destruct Hk as [-> | ->]; discriminate.
Qed.
Print Assumptions limits_of_server.

Example ex_limits : exists m, block_of (EBlock (str "server") [] [EItem (str "listen") [str "80"]; EItem (str "recv_timeout") [str "10000000"]]) = [m] /\
  limit_of (conf_limit m (str "recv_timeout")) = Some 10000000 /\ limit_of (conf_limit m (str "send_timeout")) = None.
Proof. eexists. split; [reflexivity|]. split; vm_compute; reflexivity. Qed.

(** With the delivered configuration files: conf/sps.conf sets ten seconds for
    every wait on each of its ports, conf/srt.conf on two of its three, and
    conf/https.conf sets no limit. *)
Theorem shipped_limits : forall f root ls can_listen, In f [sps_conf; srt_conf; https_conf] ->
  load_conf f = Ok root -> install can_listen root = Ok ls ->
  map (fun l => (ls_port l, limit_of (conf_limit (sv_conf (ls_server l)) (str "recv_timeout")),
                            limit_of (conf_limit (sv_conf (ls_server l)) (str "send_timeout")))) ls =
  if eqb_list f sps_conf then [(80, Some 10000000, Some 10000000); (8000, Some 10000000, Some 10000000); (1935, Some 10000000, Some 10000000)]
  else if eqb_list f srt_conf then [(8001, None, None); (1935, Some 10000000, Some 10000000); (6000, Some 10000000, Some 10000000)]
  else [(445, None, None)].
Proof.
  intros f root ls can_listen [<-|[<-|[<-|[]]]] Hl Hi.
  - rewrite eqb_list_refl. assert (root = root_of sps_conf) as -> by (unfold root_of; rewrite Hl; reflexivity). clear Hl.
    assert (ls = ls_of sps_conf) as -> by (revert Hi; vm_compute; destruct (can_listen 80); try discriminate; destruct (can_listen 8000); try discriminate; destruct (can_listen 1935); try discriminate; intros [= <-]; reflexivity).
    vm_compute. reflexivity.
  - replace (eqb_list srt_conf sps_conf) with false by (vm_compute; reflexivity). rewrite eqb_list_refl.
    assert (root = root_of srt_conf) as -> by (unfold root_of; rewrite Hl; reflexivity). clear Hl.
    assert (ls = ls_of srt_conf) as -> by (revert Hi; vm_compute; destruct (can_listen 8001); try discriminate; destruct (can_listen 1935); try discriminate; destruct (can_listen 6000); try discriminate; intros [= <-]; reflexivity).
    vm_compute. reflexivity.
  - replace (eqb_list https_conf sps_conf) with false by (vm_compute; reflexivity).
    replace (eqb_list https_conf srt_conf) with false by (vm_compute; reflexivity).
    assert (root = root_of https_conf) as -> by (unfold root_of; rewrite Hl; reflexivity). clear Hl.
    assert (ls = ls_of https_conf) as -> by (revert Hi; vm_compute; destruct (can_listen 445); try discriminate; intros [= <-]; reflexivity).
    vm_compute. reflexivity.
Qed.
Print Assumptions shipped_limits.
Example shipped_limits_ex : exists root ls, load_conf sps_conf = Ok root /\ install (fun _ => Ok tt) root = Ok ls /\ length ls = 3%nat.
Proof. exists (root_of sps_conf), (ls_of sps_conf). split; [|split]; vm_compute; reflexivity. Qed.
