(** Whole HTTP connections: theorems. *)
From Verif Require Import Base M_IO S_IO M_Text M_Packet M_Flv S_Flv L_Flv P_Flv M_Conf M_Url M_Host M_Http M_Https M_Upload M_Stream S_Http L_Http L_Http2 L_Http3 P_Http S_Upload L_Upload P_Upload M_HttpConn S_HttpConn L_HttpConn.

(** Example server: a proxied host p, a streaming host s. *)
Definition xh (target host : string) : list Z :=
  str "GET " ++ str target ++ str " HTTP/1.1" ++ [13; 10] ++ str "Host: " ++ str host ++ [13; 10; 13; 10].
Definition xh_p := xh "/a" "p".
Definition xh_s := xh "/live/a.flv" "s".
Definition xh_u := xh "/a" "u".
Definition x_host (name : string) (opts : list (list Z * list Z)) : cmod := CMod (str "host") (str name) opts [].
Definition x_router : hrouter := mkrt [(str "p", x_host "p" [(str "pass_proxy", str "10.0.0.1:81")]); (str "s", x_host "s" [(str "type", str "stream"); (str "role", str "source"); (str "edge_avformat", str "all")])] [] None.
Definition x_req (h : list Z) : Z * (list Z * list Z * list kv) :=
  (zlen h, if eqb_list h xh_p then (str "/a", str "GET", [(str "Host", str "p")])
           else if eqb_list h xh_s then (str "/live/a.flv", str "GET", [(str "Host", str "s")])
           else if eqb_list h xh_u then (str "/a", str "GET", [(str "Host", str "u")])
           else (str "/live/a.flv", str "POST", [(str "Host", str "s"); (str "Transfer-Encoding", str "chunked")])).
Definition x_cfg : hcfg := mkhg (fun _ => str "R") x_req (fun _ => (1, rsp_of_lib 200 5 false [(str "X", str "y")])) hp_url x_router
  input_exts output_exts (fun _ => flv_decode_prog 9 (repeat 0 64)).
Definition x_env : henv := mkhe (fun _ => false) (0, false) [] true (mktr [take 7 ex_rhead; drop 7 ex_rhead ++ str "hello"] (-5)) (mksk [] None 0).
Lemma xh_head t h : (plain (str "GET " ++ str t ++ str " HTTP/1.1")) -> plain (str "Host: " ++ str h) -> is_head (xh t h).
Proof.
  intros A B. exists [str "GET " ++ str t ++ str " HTTP/1.1"; str "Host: " ++ str h]. split; [discriminate|]. split.
  - constructor; [split; [discriminate|exact A]|constructor; [split; [discriminate|exact B]|constructor]].
  - unfold xh, crlf_lines. cbn [flat_map]. rewrite app_nil_r, <- !app_assoc. reflexivity.
Qed.
Definition x_r (h : list Z) : ureq := let '(_, (t, m, f)) := x_req h in snd (request_of hp_url t m f).
Lemma x_in_p : request_in x_cfg xh_p (x_r xh_p).
Proof.
  split; [apply xh_head; apply plain_lit; reflexivity|]. split; [vm_compute; discriminate|]. split; [vm_compute; reflexivity|].
  exists (str "/a"), (str "GET"), [(str "Host", str "p")], 0. split; vm_compute; reflexivity.
Qed.
Lemma x_in_s : request_in x_cfg xh_s (x_r xh_s).
Proof.
  split; [apply xh_head; apply plain_lit; reflexivity|]. split; [vm_compute; discriminate|]. split; [vm_compute; reflexivity|].
  exists (str "/live/a.flv"), (str "GET"), [(str "Host", str "s")], 0. split; vm_compute; reflexivity.
Qed.
Lemma x_in_u : request_in x_cfg xh_u (x_r xh_u).
Proof.
  split; [apply xh_head; apply plain_lit; reflexivity|]. split; [vm_compute; discriminate|]. split; [vm_compute; reflexivity|].
  exists (str "/a"), (str "GET"), [(str "Host", str "u")], 0. split; vm_compute; reflexivity.
Qed.
Lemma x_open h r : request_in x_cfg h r -> rq_method r <> str "POST" -> fst (alone x_cfg x_env h) = Some (Ok 0) -> stays_open x_cfg x_env h.
Proof.
  intros (Q1 & Q2 & Q3 & tg & m & fs & c & Q4 & Q5) Hm Hx. split; [split; [exact Q1|split; [exact Q2|lia]]|]. split; [|exact Hx].
  unfold accepts_upload. destruct (hg_req x_cfg h) as [n [[tg' m'] fs']]. cbn [snd] in Q4. injection Q4 as -> -> ->. rewrite Q5. cbn [snd].
  intros (m0 & f & _ & _ & B & _). contradiction.
Qed.
Lemma x_all_open : all_stay_open x_cfg (fun _ => x_env) [xh_u; xh_p; xh_s].
Proof.
  cbn [all_stay_open]. split; [|split; [|split; [|exact I]]].
  - apply (x_open _ _ x_in_u); [discriminate|vm_compute; reflexivity].
  - apply (x_open _ _ x_in_p); [discriminate|vm_compute; reflexivity].
  - apply (x_open _ _ x_in_s); [discriminate|vm_compute; reflexivity].
Qed.

(** C149: requests on one connection do not influence each other.  However they
    are divided into reads, what the client receives and what the upstreams
    receive is what each request would have caused on a connection of its own,
    in order; then the connection goes on as a new one would with the bytes that
    follow. *)
Theorem keepalive_requests_independent : forall g envs hs rest t, all_stay_open g envs hs ->
  nonempty_chunks (t_chunks t) -> t_stream t = concat hs ++ rest ->
  exists t1 ctx1, t_stream t1 = rest /\ nonempty_chunks (t_chunks t1) /\ t_err t1 = t_err t /\
  forall f r s r1 s1, http_conn (length hs + f) g envs (cst0 t) = (r, s) ->
    http_conn f g (fun k => envs (length hs + k)%nat) (mkcs t1 ctx1 (mksk [] None 0) [] []) = (r1, s1) ->
    r = r1 /\ sk_out (cs_out s) = outs_of g envs hs ++ sk_out (cs_out s1) /\
    cs_up s = ups_of g envs hs ++ cs_up s1 /\ cs_pub s = cs_pub s1.
Proof.
  intros g envs hs rest t Ho Hn Hs. destruct (conn_requests g hs envs t None rest Ho Hn Hs) as (t1 & c1 & A & B & C & D).
  exists t1, c1. split; [exact A|]. split; [exact B|]. split; [exact C|]. intros f r s r1 s1 E1 E2.
  unfold cst0 in E1. rewrite D, E2 in E1. injection E1 as <- <-. cbn. auto.
Qed.
(** When the client has sent all its requests and closes, the connection ends. *)
Theorem keepalive_run : forall g envs hs t, all_stay_open g envs hs ->
  nonempty_chunks (t_chunks t) -> t_stream t = concat hs -> t_err t <> 0 ->
  exists s, http_conn (length hs + 1) g envs (cst0 t) = (Some (Ok (- Z.abs (t_err t))), s) /\
    sk_out (cs_out s) = outs_of g envs hs /\ cs_up s = ups_of g envs hs /\ cs_pub s = [].
Proof.
  intros g envs hs t Ho Hn Hs He. rewrite <- (app_nil_r (concat hs)) in Hs.
  destruct (conn_requests g hs envs t None [] Ho Hn Hs) as (t1 & c1 & A & B & C & D).
  rewrite <- C in He. destruct (conn_eof g (fun k => envs (length hs + k)%nat) t1 c1 A B He) as (s & E & F1 & F2 & F3).
  unfold cst0. rewrite D, E, C. eexists. split; [reflexivity|]. cbn. rewrite F1, F2, F3, !app_nil_r. auto.
Qed.
(** A request that fails, or that never ends, is the last one; what follows it is
    not looked at. *)
Theorem keepalive_stops : forall g envs hs h rest t, all_stay_open g envs hs -> head_ok g h ->
  ~ accepts_upload g (envs (length hs)) h -> fst (alone g (envs (length hs)) h) <> Some (Ok 0) ->
  nonempty_chunks (t_chunks t) -> t_stream t = concat hs ++ h ++ rest ->
  exists s, http_conn (length hs + 1) g envs (cst0 t) = (fst (alone g (envs (length hs)) h), s) /\
    sk_out (cs_out s) = outs_of g envs (hs ++ [h]) /\ cs_up s = ups_of g envs (hs ++ [h]) /\ cs_pub s = [].
Proof.
  intros g envs hs h rest t Ho Hk Hacc Hx Hn Hs.
  destruct (conn_requests g hs envs t None (h ++ rest) Ho Hn Hs) as (t1 & c1 & A & B & C & D).
  destruct (turn_alone g (envs (length hs)) h t1 c1 rest Hk Hacc B A) as (t2 & c2 & s2 & _ & _ & _ & E1 & _ & E3 & E4).
  unfold cst0. rewrite D. cbn [http_conn]. rewrite Nat.add_0_r, E4.
  rewrite outs_of_app, ups_of_app. cbn [outs_of ups_of]. rewrite Nat.add_0_r, !app_nil_r. unfold alone_out, alone_up.
  assert (K : forall x, fst (alone g (envs (length hs)) h) = x -> x <> Some (Ok 0) ->
    match x with Some (Ok r) => if r =? 0 then http_conn 0 g (fun k => envs (length hs + S k)%nat) (mkcs t2 c2 (cs_out s2) (cs_up s2) (cs_pub s2)) else (Some (Ok r), mkcs t2 c2 (cs_out s2) (cs_up s2) (cs_pub s2))
      | _ => (x, mkcs t2 c2 (cs_out s2) (cs_up s2) (cs_pub s2)) end = (x, mkcs t2 c2 (cs_out s2) (cs_up s2) (cs_pub s2))).
  { intros x _ Hx'. destruct x as [[c|c| |]|]; try reflexivity. destruct (c =? 0) eqn:Ec; [|reflexivity]. apply Z.eqb_eq in Ec. subst c. congruence. }
  specialize (K _ eq_refl Hx). rewrite E1. cbn [fst snd].
  destruct (fst (alone g (envs (length hs)) h)) as [[c|c| |]|] eqn:EA.
  - destruct (c =? 0) eqn:Ec; [apply Z.eqb_eq in Ec; subst c; congruence|]. eexists. split; [reflexivity|]. cbn. rewrite E3. auto.
  - eexists. split; [reflexivity|]. cbn. rewrite E3. auto.
  - eexists. split; [reflexivity|]. cbn. rewrite E3. auto.
  - eexists. split; [reflexivity|]. cbn. rewrite E3. auto.
  - eexists. split; [reflexivity|]. cbn. rewrite E3. auto.
Qed.
Example keepalive_case :
  all_stay_open x_cfg (fun _ => x_env) [xh_u; xh_p; xh_s] /\
  (let '(r, s) := http_conn 4 x_cfg (fun _ => x_env) (cst0 (mktr [take 9 xh_u; drop 9 xh_u ++ xh_p ++ take 3 xh_s; drop 3 xh_s] 1004)) in
   r = Some (Ok (-1004)) /\ sk_out (cs_out s) = alone_out x_cfg x_env xh_u ++ alone_out x_cfg x_env xh_p ++ alone_out x_cfg x_env xh_s /\
   map fst (cs_up s) = [(str "10.0.0.1", 81)] /\ zlen (sk_out (cs_out s)) = 142) /\
  (* an upstream that cannot be reached ends the connection *)
  fst (alone x_cfg (mkhe (fun _ => false) (0, false) [] false (mktr [] 0) (mksk [] None 0)) xh_p) = Some (Ok ERROR_HTTP_SOCKET_CONNECT).
Proof. split; [exact x_all_open|]. split; [vm_compute; auto|]. vm_compute. reflexivity. Qed.
Print Assumptions keepalive_requests_independent.
Print Assumptions keepalive_run.
Print Assumptions keepalive_stops.

(** C150: a request for a host the server does not know is answered with a 404
    that says it has no body, whatever the method; no upstream is contacted,
    nothing behind the head is read, and the connection is ready for the next
    request. *)
Theorem unknown_host_answer : forall g e h r rest t, request_in g h r -> find_host (hg_router g) (rq_host r) = None -> plain (hg_reason g 404) ->
  nonempty_chunks (t_chunks t) -> t_stream t = h ++ rest ->
  exists s, http_turn g e (cst0 t) = (Some (Ok 0), s) /\ t_stream (cs_in s) = rest /\ cs_up s = [] /\ cs_pub s = [] /\
    read_message (sk_out (cs_out s)) =
      Some (str "HTTP/1.1 404 " ++ hg_reason g 404, [(str "Content-Length", str "0"); (str "Server", str "sps")], []).
Proof.
  intros g e h r rest t Hr Hf Hp Hn Hs.
  assert (Hno : ~ accepts_upload g e h) by (eapply request_no_upload; [exact Hr|right; intros m E; congruence]).
  destruct (turn_alone g e h t None rest (request_head_ok _ _ _ Hr) Hno Hn Hs) as (t1 & c1 & s1 & A1 & A2 & A3 & A4 & A5 & A6 & A7).
  destruct (alone_404 g e h r Hr Hf) as (B1 & B2 & B3). unfold alone_out, alone_up in *. rewrite A4 in B2, B3. cbn [snd] in B2, B3.
  eexists. unfold cst0. rewrite A7, B1. split; [reflexivity|]. cbn [cs_in cs_up cs_pub cs_out]. split; [exact A1|]. split; [exact B3|]. split; [exact A6|].
  rewrite B2, <- (app_nil_r (response_head _ _)), response_head_message; [reflexivity|cbn; lia|exact Hp|constructor].
Qed.
Example unknown_host_case : request_in x_cfg xh_u (x_r xh_u) /\ find_host (hg_router x_cfg) (rq_host (x_r xh_u)) = None /\
  alone_out x_cfg x_env xh_u = str "HTTP/1.1 404 R" ++ [13; 10] ++ str "Content-Length: 0" ++ [13; 10] ++ str "Server: sps" ++ [13; 10; 13; 10].
Proof. split; [exact x_in_u|]. vm_compute. auto. Qed.
Print Assumptions unknown_host_answer.

(** C151: when every request is for an unknown host or proxied and answered with a
    body, by length or in chunks, a client that delimits responses as RFC 7230
    says reads exactly the upstreams' statuses and bodies, in order, and there is
    no other way to read what it got. *)
Theorem responses_separable : forall g envs l t, all_answered g envs l ->
  nonempty_chunks (t_chunks t) -> t_stream t = concat (map (fun x => fst (fst (fst x))) l) -> t_err t <> 0 ->
  exists s, http_conn (length l + 1) g envs (cst0 t) = (Some (Ok (- Z.abs (t_err t))), s) /\
    forall l', answers (map (fun x => snd (fst (fst x))) l) (sk_out (cs_out s)) l' <-> l' = map (fun x => (snd (fst x), snd x)) l.
Proof.
  intros g envs l t Ha Hn Hs He. destruct (all_answered_outs g l envs Ha) as [A B].
  destruct (keepalive_run g envs _ t A Hn Hs He) as (s & C & D & _). rewrite map_length in C. exists s. split; [exact C|].
  intros l'. rewrite D. split; [intros H; symmetry; exact (answers_fun _ _ _ B _ H)|intros ->; exact B].
Qed.
Example responses_separable_case : all_answered x_cfg (fun _ => x_env) [(xh_p, str "GET", 200, str "hello"); (xh_u, str "GET", 404, []); (xh_p, str "GET", 200, str "hello")].
Proof.
  assert (P : answered x_cfg x_env xh_p (str "GET") 200 (str "hello")).
  { eapply (aw_length x_cfg x_env xh_p (x_r xh_p) ex_rhead 1 200 [(str "X", str "y")] (str "hello") []).
    - exact x_in_p.
    - split; [eexists; split; vm_compute; reflexivity|]. repeat (split; [vm_compute; reflexivity|]). split; [|reflexivity].
      cbn. constructor; [discriminate|constructor; [discriminate|constructor]].
    - exact ex_rhead_ok.
    - vm_compute; discriminate.
    - reflexivity.
    - lia.
    - vm_compute; auto.
    - lia.
    - apply plain_lit; reflexivity.
    - constructor; [|constructor]. split; [apply plain_lit; reflexivity|split; [apply plain_lit; reflexivity|apply notin_lit; reflexivity]].
    - intros [B|[B|[B|B]]]; [vm_compute in B; discriminate|lia|lia|lia].
    - reflexivity.
    - constructor. }
  cbn [all_answered]. split; [exact P|]. split; [|split; [exact P|exact I]].
  apply (aw_unknown x_cfg x_env xh_u (x_r xh_u)); [exact x_in_u|reflexivity|apply plain_lit; reflexivity].
Qed.
Print Assumptions responses_separable.

(** C152: the answer for a stream that is not there has neither a length nor
    chunks, although the connection goes on: a client reads the answer to its
    next request as the body of this one, and the two cannot be told apart. *)
Theorem missing_stream_swallows : forall g envs h1 h2 r m m2 rest t, request_in g h1 r -> find_host (hg_router g) (rq_host r) = Some m -> adapter m = AStream ->
  rq_method r <> str "POST" -> rq_method r <> str "HEAD" -> play_start (hg_outs g) m r (he_taken (envs O)) (he_edge (envs O)) = Err ERROR_STREAM_SOURCE_NOT_EXITS ->
  stays_open g (envs 1%nat) h2 -> plain (hg_reason g 404) -> nonempty_chunks (t_chunks t) -> t_stream t = h1 ++ h2 ++ rest ->
  exists s, http_conn 2 g envs (cst0 t) = (Some Fuel, s) /\
    (forall l', ~ answers [rq_method r; m2] (sk_out (cs_out s)) l') /\
    answers [rq_method r] (sk_out (cs_out s)) [(404, alone_out g (envs 1%nat) h2)].
Proof.
  intros g envs h1 h2 r m m2 rest t Hr Hf Ha Hp Hh Hst Ho Hre Hn Hs.
  destruct (alone_missing g (envs O) h1 r m Hr Hf Ha Hp Hst) as (A & B & _).
  assert (O1 : stays_open g (envs O) h1).
  { split; [exact (request_head_ok _ _ _ Hr)|]. split; [|exact A]. eapply request_no_upload; [exact Hr|]. left. exact Hp. }
  destruct (keepalive_requests_independent g envs [h1; h2] rest t) as (t1 & c1 & _ & _ & _ & D); [cbn; auto|exact Hn|cbn [concat]; rewrite app_nil_r, <- app_assoc; exact Hs|].
  destruct (http_conn 2 g envs (cst0 t)) as [x s] eqn:E. destruct (D 0%nat x s _ _ E eq_refl) as (-> & F & _).
  exists s. split; [reflexivity|]. cbn [outs_of sk_out cs_out] in F. rewrite !app_nil_r, B in F. rewrite F. split.
  - intros l' H. apply undelimited in H; [|auto|exact Hre|exact Hh]. destruct H as [H _]. discriminate.
  - apply undelimited; auto.
Qed.
(** The same for a refused upload. *)
Theorem refused_upload_swallows : forall g envs h1 h2 r m m2 rest t, request_in g h1 r -> find_host (hg_router g) (rq_host r) = Some m -> adapter m = AStream ->
  rq_method r = str "POST" -> publish_start (hg_ins g) m r (he_taken (envs O)) = Err ERROR_STREAM_PUBLISH_NOT_SUPPORT ->
  stays_open g (envs 1%nat) h2 -> plain (hg_reason g 403) -> nonempty_chunks (t_chunks t) -> t_stream t = h1 ++ h2 ++ rest ->
  exists s, http_conn 2 g envs (cst0 t) = (Some Fuel, s) /\
    (forall l', ~ answers [rq_method r; m2] (sk_out (cs_out s)) l') /\
    answers [rq_method r] (sk_out (cs_out s)) [(403, alone_out g (envs 1%nat) h2)].
Proof.
  intros g envs h1 h2 r m m2 rest t Hr Hf Ha Hp Hst Ho Hre Hn Hs.
  destruct (alone_refused g (envs O) h1 r m Hr Hf Ha Hp Hst) as (A & B & _).
  assert (O1 : stays_open g (envs O) h1).
  { split; [exact (request_head_ok _ _ _ Hr)|]. split; [|exact A]. eapply request_no_upload; [exact Hr|]. right. intros m0 E. right. congruence. }
  destruct (keepalive_requests_independent g envs [h1; h2] rest t) as (t1 & c1 & _ & _ & _ & D); [cbn; auto|exact Hn|cbn [concat]; rewrite app_nil_r, <- app_assoc; exact Hs|].
  destruct (http_conn 2 g envs (cst0 t)) as [x s] eqn:E. destruct (D 0%nat x s _ _ E eq_refl) as (-> & F & _).
  exists s. split; [reflexivity|]. cbn [outs_of sk_out cs_out] in F. rewrite !app_nil_r, B in F. rewrite F.
  assert (Hh : rq_method r <> str "HEAD") by (rewrite Hp; discriminate). split.
  - intros l' H. apply undelimited in H; [|auto|exact Hre|exact Hh]. destruct H as [H _]. discriminate.
  - apply undelimited; auto.
Qed.
Example missing_stream_case : request_in x_cfg xh_s (x_r xh_s) /\
  (exists m, find_host (hg_router x_cfg) (rq_host (x_r xh_s)) = Some m /\ adapter m = AStream /\
     play_start (hg_outs x_cfg) m (x_r xh_s) (he_taken x_env) (he_edge x_env) = Err ERROR_STREAM_SOURCE_NOT_EXITS) /\
  stays_open x_cfg x_env xh_u /\
  sk_out (cs_out (snd (http_conn 2 x_cfg (fun _ => x_env) (cst0 (mktr [xh_s ++ xh_u] 0))))) =
    str "HTTP/1.1 404 R" ++ [13; 10] ++ str "Server: sps" ++ [13; 10; 13; 10] ++ alone_out x_cfg x_env xh_u /\
  (* an upload to a host that is no source *)
  exists r, rq_method r = str "POST" /\ publish_start input_exts (x_host "s" [(str "type", str "stream")]) r (fun _ => false) = Err ERROR_STREAM_PUBLISH_NOT_SUPPORT.
Proof.
  split; [exact x_in_s|]. split; [eexists; repeat split; vm_compute; reflexivity|]. split; [exact (proj1 x_all_open)|]. split; [vm_compute; reflexivity|].
  exists (x_r []). split; vm_compute; reflexivity.
Qed.
Print Assumptions missing_stream_swallows.
Print Assumptions refused_upload_swallows.

(** C153: a proxied response of which only the head comes (the answer to HEAD, a
    204, a 304) reaches the client, but the server then waits for a body: when
    the upstream ends the connection, the request has failed and the client's
    connection ends, with the requests already sent on it unanswered. *)
Theorem bodyless_response_ends_connection : forall g envs h r head parsed st cl hd rest t, request_in g h r -> proxied_to g (envs O) r head ->
  is_head head -> zlen head <= MAX_HEADER -> hg_rsp g head = (parsed, rsp_of_lib st cl false hd) -> 0 < parsed -> s32 cl <> 0 ->
  ~ In (t_err (he_upin (envs O))) [0; 1; ERROR_HTTP_RES_EOF] -> nonempty_chunks (t_chunks t) -> t_stream t = h ++ rest ->
  exists s, http_conn 1 g envs (cst0 t) = (Some (Ok (t_err (he_upin (envs O)))), s) /\
    sk_out (cs_out s) = response_head (hg_reason g) (mkhr st false (s32 cl) false hd).
Proof.
  intros g envs h r head parsed st cl hd rest t Hr Hx Hh Hm Hlib Hpa Hcl Hte Hn Hs.
  destruct (alone_head_only g (envs O) h r head parsed st cl hd Hr Hx Hh Hm Hlib Hpa Hcl) as (A & B); [intros E; apply Hte; rewrite E; cbn; auto|].
  assert (E1 : (t_err (he_upin (envs O)) =? 1) = false) by (apply Z.eqb_neq; intros E; apply Hte; rewrite E; cbn; auto). rewrite E1 in A.
  destruct (keepalive_stops g envs [] h rest t) as (s & C & D & _); try assumption.
  - exact I.
  - exact (request_head_ok _ _ _ Hr).
  - eapply request_no_upload; [exact Hr|]. right. intros m E. left. destruct Hx as ((m1 & F1 & F2) & _). congruence.
  - cbn [length]. rewrite A. intros E. injection E as E. apply Hte. rewrite E. cbn; auto.
  - exists s. cbn [length Nat.add] in C. rewrite A in C. split; [exact C|]. rewrite D. cbn [app outs_of]. rewrite app_nil_r. exact B.
Qed.
Definition x_env_head : henv := mkhe (fun _ => false) (0, false) [] true (mktr [ex_rhead] 1004) (mksk [] None 0).
Example bodyless_case : request_in x_cfg xh_p (x_r xh_p) /\ proxied_to x_cfg x_env_head (x_r xh_p) ex_rhead /\ is_head ex_rhead /\
  hg_rsp x_cfg ex_rhead = (1, rsp_of_lib 200 5 false [(str "X", str "y")]) /\ s32 5 <> 0 /\ s32 (2 ^ 64 - 1) = -1 /\
  fst (http_conn 9 x_cfg (fun _ => x_env_head) (cst0 (mktr [xh_p ++ xh_u] 1004))) = Some (Ok 1004).
Proof.
  split; [exact x_in_p|]. split.
  { split; [eexists; split; vm_compute; reflexivity|]. repeat (split; [vm_compute; reflexivity|]). split; [|vm_compute; reflexivity].
    cbn. constructor; [discriminate|constructor]. }
  split; [exact ex_rhead_ok|]. split; [reflexivity|]. split; [discriminate|]. split; vm_compute; reflexivity.
Qed.
Print Assumptions bodyless_response_ends_connection.

(** C154: if the upstream cannot be reached, or ends the connection before its
    response head is complete, the client is told nothing: its connection ends
    without a byte. *)
Theorem upstream_failure_unreported : forall g envs h r m rest t, request_in g h r -> find_host (hg_router g) (rq_host r) = Some m -> adapter m = AProxy ->
  rq_schema r = str "http" ->
  (he_conn (envs O) = false \/
   (he_conn (envs O) = true /\ nonempty_chunks (t_chunks (he_upin (envs O))) /\ sk_room (he_upout (envs O)) = None /\ t_err (he_upin (envs O)) <> 0 /\
    exists q, q <> [] /\ is_head (t_stream (he_upin (envs O)) ++ q))) ->
  nonempty_chunks (t_chunks t) -> t_stream t = h ++ rest ->
  exists c s, http_conn 1 g envs (cst0 t) = (Some (Ok c), s) /\ c <> 0 /\ sk_out (cs_out s) = [].
Proof.
  intros g envs h r m rest t Hr Hf Ha Hsc Hup Hn Hs.
  assert (K : exists c, fst (alone g (envs O) h) = Some (Ok c) /\ c <> 0 /\ alone_out g (envs O) h = []).
  { destruct Hup as [Hc|(Hc & Hne & Hro & He & q & Hq & Hh)].
    - destruct (alone_unreachable g (envs O) h r m Hr Hf Ha Hsc Hc) as (A & B). exists ERROR_HTTP_SOCKET_CONNECT. split; [exact A|]. split; [discriminate|exact B].
    - destruct (alone_proxy g (envs O) h r _ Hr (conj (ex_intro _ m (conj Hf Ha)) (conj Hsc (conj Hc (conj Hro (conj Hne eq_refl)))))) as (addr & port & Eal).
      destruct (read_head_any (he_upin (envs O)) MAX_HEADER Hne) as (x & t1 & Hrh & Hxx); [unfold MAX_HEADER; lia|].
      assert (Hx : exists e0, x = Err e0 /\ e0 < 0).
      { destruct Hxx as [(d & -> & Hd & Hs' & Hn')|[(-> & d & Hs' & Hd)|(-> & _ & Hl)]].
        - exfalso. assert (t_stream t1 ++ q = []) as E0.
          { apply (head_stop_at_end (t_stream (he_upin (envs O)) ++ q) d); [exact (is_head_shape _ Hh)| |lia|exact Hn']. rewrite Hs', <- app_assoc. reflexivity. }
          apply app_eq_nil in E0 as [_ E0]. contradiction.
        - eexists. split; [reflexivity|]. lia.
        - eexists. split; [reflexivity|]. unfold head_err. destruct (0 <? t_err (he_upin (envs O))) eqn:E0; lia. }
      destruct Hx as (e0 & -> & He0).
      assert (Hq2 : http_request (rq_method r) (rq_url r) (rq_host r) [] (rq_headers r) <> []) by (unfold http_request; destruct (rq_method r); discriminate).
      assert (Epx : exists ups, proxy (hg_reason g) (hg_rsp g) (mkpq (rq_method r) (rq_url r) (rq_host r) (rq_headers r)) (he_upin (envs O)) (he_upout (envs O)) (mksk [] None 0) = (Err e0, t1, ups, mksk [] None 0)).
      { unfold proxy. cbn [pq_method pq_url pq_host pq_headers]. rewrite sk_write_none by assumption. rewrite Hrh. eauto. }
      destruct Epx as (ups & Epx). rewrite Epx in Eal. unfold alone_out. rewrite Eal. cbn [fst snd cs_out sk_out].
      exists e0. destruct (e0 =? 1) eqn:E1; [lia|]. split; [reflexivity|]. split; [lia|reflexivity]. }
  destruct K as (c & A & Hc & B).
  destruct (keepalive_stops g envs [] h rest t) as (s & C & D & _); try assumption.
  - exact I.
  - exact (request_head_ok _ _ _ Hr).
  - eapply request_no_upload; [exact Hr|]. right. intros m0 E. left. congruence.
  - cbn [length]. rewrite A. congruence.
  - exists c, s. cbn [length Nat.add] in C. rewrite A in C. split; [exact C|]. split; [exact Hc|]. rewrite D. cbn [app outs_of]. rewrite app_nil_r. exact B.
Qed.
Definition x_env_cut : henv := mkhe (fun _ => false) (0, false) [] true (mktr [take 9 ex_rhead] 1004) (mksk [] None 0).
Example upstream_failure_case : request_in x_cfg xh_p (x_r xh_p) /\
  (exists q, q <> [] /\ is_head (t_stream (he_upin x_env_cut) ++ q)) /\
  fst (http_conn 1 x_cfg (fun _ => x_env_cut) (cst0 (mktr [xh_p] 1004))) = Some (Ok (-1004)) /\
  sk_out (cs_out (snd (http_conn 1 x_cfg (fun _ => x_env_cut) (cst0 (mktr [xh_p] 1004))))) = [].
Proof.
  split; [exact x_in_p|]. split; [exists (drop 9 ex_rhead); split; [discriminate|exact ex_rhead_ok]|]. split; vm_compute; reflexivity.
Qed.
Print Assumptions upstream_failure_unreported.

(** C155: an accepted FLV upload is published under its stream's name, packet for
    packet; it is never answered, and its connection ends with it, whatever the
    client has sent behind the body. *)
Theorem accepted_upload_unanswered : forall g envs h r m f fill ps wire more t, request_in g h r ->
  find_host (hg_router g) (rq_host r) = Some m -> adapter m = AStream -> rq_method r = str "POST" ->
  publish_start (hg_ins g) m r (he_taken (envs O)) = Ok f -> hg_decode g f = flv_decode_prog (S (length ps)) fill ->
  15 <= zlen fill < 2 ^ 24 -> Forall (flv_transportable (zlen fill)) ps ->
  S_Https.framed (rq_is_chunked r, rq_content_length r) wire ([0x46; 0x4C; 0x56; 1; 5; 0; 0; 0; 9] ++ flv_layout 0 ps) more ->
  nonempty_chunks (t_chunks t) -> t_stream t = h ++ wire ->
  exists s, http_conn 1 g envs (cst0 t) = (Some (Ok ERROR_HTTP_RES_EOF), s) /\
    sk_out (cs_out s) = [] /\ cs_pub s = [(cache_key r, ps)] /\ cs_up s = [].
Proof.
  intros g envs h r m f fill ps wire more t Hr Hf Ha Hm Hp Hd Hc HF Hfr Hn Hs.
  pose proof Hr as (Q1 & Q2 & Q3 & tg & me & fs & c & Q4 & Q5).
  pose proof (P_Upload.http_flv_upload_published (fun _ => (rq_is_chunked r, rq_content_length r)) fill t h wire more ps Hn Q1 Q2 Hs Hc HF Hfr) as U.
  destruct (read_head_ok h wire t MAX_HEADER (is_head_shape h Q1) Hn Hs Q2) as (t1 & R1 & _).
  unfold upload_prog in U. rewrite L_Https.run_plain_bind, L_Https.head_prog_run, R1 in U. cbn iota in U. rewrite L_Https.run_plain_bind in U.
  assert (V : exists t2, run_plain (over_body (flv_decode_prog (S (length ps)) fill) (hb_new (rq_is_chunked r) (rq_content_length r))) t1 = (Ok (Ok (ps, Err ERROR_HTTP_RES_EOF)), t2)).
  { destruct (run_plain (over_body _ _) t1) as [[[[ps' x]|c'| |]|c'| |] t2]; cbn in U; try discriminate. injection U as -> ->. eauto. }
  destruct V as (t2 & V).
  cbn [http_conn]. unfold http_turn, cst0. cbn [wchain]. unfold http_parse. cbn [cs_in cs_ctx cs_out cs_up cs_pub]. rewrite R1.
  destruct (hg_req g h) as [n [[tg' m'] fs']]. cbn [fst snd] in *. injection Q4 as -> -> ->. rewrite Q5.
  destruct (n <=? 0) eqn:En; [lia|]. change (PHASE_CONTINUE =? PHASE_NO_CONTINUE) with false. cbn iota. rewrite Z.eqb_refl.
  unfold http_route. cbn [cs_ctx]. rewrite Hf, Ha. unfold serve_stream. rewrite Hm, eqb_list_refl, Hp, Hd. cbn [cs_in]. rewrite V.
  unfold http_stream, stream_request. rewrite Hm, eqb_list_refl. cbn [w_taken w_decode]. rewrite Hp.
  cbn. eexists. split; [reflexivity|]. auto.
Qed.
Example accepted_upload_case :
  let s := snd (http_conn 1 x_cfg (fun _ => x_env) (cst0 (mktr [P_Upload.ex_post; P_Upload.ex_chunks ++ xh_u] 1004))) in
  sk_out (cs_out s) = [] /\ cs_pub s = [(str "s/live/a", flv_ex_packets)] /\
  (exists m, find_host (hg_router x_cfg) (rq_host (x_r P_Upload.ex_post)) = Some m /\ adapter m = AStream /\
     publish_start (hg_ins x_cfg) m (x_r P_Upload.ex_post) (fun _ => false) = Ok (str "flv")) /\ rq_method (x_r P_Upload.ex_post) = str "POST".
Proof. cbv zeta. split; [vm_compute; reflexivity|]. split; [vm_compute; reflexivity|]. split; [eexists; repeat split; vm_compute; reflexivity|vm_compute; reflexivity]. Qed.
Print Assumptions accepted_upload_unanswered.
