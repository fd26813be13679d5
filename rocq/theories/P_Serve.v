(** Starting the process, transports and certificates: theorems. *)
From Verif Require Import Base M_Text M_Url S_Url L_Url P_Url M_Conf M_Host S_Host L_Host L_Conf M_IO M_Tls M_Serve S_Serve L_Serve.

Definition open_any : Z -> res unit := fun _ => Ok tt.
(** A small configuration and the file that holds it. *)
Definition small_text : list Z := str "http {" ++ [10] ++ str "server s {" ++ [10] ++ str "listen_port 8080;" ++ [10] ++ str "host a {" ++ [10] ++ str "}" ++ [10] ++ str "}" ++ [10] ++ str "}" ++ [10].
Definition small_fs (writable : bool) : fsys := fun n => if eqb_list n (str "conf/sps.conf") then Some (mkfe small_text writable) else None.
Lemma small_name : relative_name (str "conf/sps.conf").
Proof.
  exists (str "conf"), (Some (str "/sps.conf")). split; [|reflexivity]. constructor; try exact I.
  - split; [discriminate|]. cbn; repeat (constructor; [unfold alpha; lia|]). constructor.
  - split; [discriminate|]. cbn; repeat (constructor; [unfold host_c, alpha, digit_c; lia|]). constructor.
  - exists (str "sps.conf"). split; [reflexivity|]. cbn; repeat (constructor; [unfold path_c; lia|]). constructor.
Qed.

(** C135: started with a relative file name the server does exactly what the
    text of that file says, provided the file can also be written; otherwise it
    ends with a file error. *)
Theorem start_exact : forall lib fs cl prog name more, url_lib_ok lib -> relative_name name ->
  (forall text, fs name = Some (mkfe text true) ->
     sps_main lib fs 0 cl (prog :: name :: more) = let? root := load_conf text in install cl root) /\
  (forall text, fs name = Some (mkfe text false) -> sps_main lib fs 0 cl (prog :: name :: more) = Err ERROR_FILE_OPEN) /\
  (fs name = None -> sps_main lib fs 0 cl (prog :: name :: more) = Err ERROR_FILE_OPEN).
Proof.
  intros lib fs cl prog name more Hlib (first & path & Hwf & ->). unfold sps_main, init_config.
  rewrite (url_create_file lib first path Hlib Hwf). cbn [bind]. rewrite eqb_list_refl. unfold file_open.
  repeat split; intros; rewrite H; cbn [fe_writable fe_text bind]; try reflexivity.
Qed.
Example start_exact_case :
  (exists ls, sps_main hp_url (small_fs true) 0 open_any [str "sps"; str "conf/sps.conf"] = Ok ls /\ map ls_port ls = [8080]) /\
  sps_main hp_url (small_fs false) 0 open_any [str "sps"; str "conf/sps.conf"] = Err ERROR_FILE_OPEN /\
  sps_main hp_url (small_fs true) 0 open_any [str "sps"; str "conf/other.conf"] = Err ERROR_FILE_OPEN.
Proof. split; [eexists; split; vm_compute; reflexivity|split; vm_compute; reflexivity]. Qed.
Print Assumptions start_exact.

(** C135 fails for absolute file names: none is ever opened. *)
Theorem start_absolute_refused : forall lib fs st cl prog name more, refuses_empty_host lib -> absolute_name name ->
  sps_main lib fs st cl (prog :: name :: more) = Err ERROR_URL_PROTOCOL_NOT_EXISTS.
Proof.
  intros lib fs st cl prog name more Hlib (rest & -> & Hr). unfold sps_main, init_config, url_create, url_from, parse_url.
  change (str "file://" ++ 47 :: rest) with (str "file" ++ str "://" ++ 47 :: rest).
  rewrite Hlib; [reflexivity|discriminate| |exact Hr]. cbn; repeat (constructor; [unfold alpha; lia|]). constructor.
Qed.
Example start_absolute_case : refuses_empty_host hp_url /\
  sps_main hp_url (fun _ => Some (mkfe small_text true)) 0 open_any [str "sps"; str "/etc/sps.conf"] = Err ERROR_URL_PROTOCOL_NOT_EXISTS.
Proof. split; [exact hp_refuses_empty_host|vm_compute; reflexivity]. Qed.
Print Assumptions start_absolute_refused.

(** C136: a start that fails is reported to the parent process by a non-zero
    exit status, given that the errors of listening are. *)
Theorem start_failure_reported : forall lib fs st cl argv c,
  (forall p e, cl p = Err e -> e <> CONF_EXIT /\ e mod 256 <> 0) -> (st = 0 \/ st = -1) ->
  sps_main lib fs st cl argv = Err c -> exists x, exit_status (@Err (list listener) c) = Some x /\ 0 < x <= 255.
Proof.
  intros lib fs st cl argv c Hcl Hst H. exists ((if c =? CONF_EXIT then -1 else c) mod 256). split; [reflexivity|].
  assert (K : (if c =? CONF_EXIT then -1 else c) mod 256 <> 0).
  { assert (K1 : conf_code c \/ c = ERROR_FILE_OPEN \/ c = ERROR_URL_PROTOCOL_NOT_EXISTS \/ c = -1 \/ exists p, cl p = Err c).
    { unfold sps_main in H. destruct argv as [|a [|name more]]; try (injection H as <-; tauto).
      unfold init_config in H. destruct (url_create lib (str "file://" ++ name)) as [[s|]|e| |] eqn:E; cbn [bind] in H; try discriminate.
      - destruct (eqb_list s (str "file")); [|cbn [bind] in H; injection H as <-; tauto].
        unfold file_open in H. destruct (fs name) as [f|]; [|cbn [bind] in H; injection H as <-; tauto].
        destruct (fe_writable f); [|cbn [bind] in H; injection H as <-; tauto]. cbn [bind] in H.
        destruct (load_conf (fe_text f)) as [root|e| |] eqn:El; cbn [bind] in H; try discriminate.
        + destruct (st =? 0) eqn:Es; [|injection H as <-; destruct Hst as [->| ->]; [discriminate|tauto]].
          apply install_codes in H. destruct H as [->|H]; [left; left; reflexivity|tauto].
        + injection H as <-. left. exact (load_conf_codes _ _ El).
      - injection H as <-; tauto.
      - unfold url_create in E. destruct (url_from lib (str "file://" ++ name)) as [[x|x| |] r]; discriminate. }
    destruct K1 as [[->|[->| ->]]|[->|[->|[->|(p & Hp)]]]]; try (vm_compute; discriminate).
    destruct (Hcl p c Hp) as (N1 & N2). replace (c =? CONF_EXIT) with false by (symmetry; apply Z.eqb_neq; exact N1). exact N2. }
  pose proof (Z.mod_pos_bound (if c =? CONF_EXIT then -1 else c) 256 ltac:(lia)). lia.
Qed.
(** The errors of listening (src/sys/st/io/sps_sys_st_io_tcp.cpp:94-136 and sps_sys_st_io_srt.cpp:269-328 and
    sps_sys_st_io_srt.cpp) satisfy the hypothesis. *)
Example start_failure_case : Forall (fun e => e <> CONF_EXIT /\ e mod 256 <> 0)
    [ERROR_SOCKET_CREATE; ERROR_SOCKET_SETREUSE; ERROR_SOCKET_BIND; ERROR_SOCKET_LISTEN; ERROR_ST_OPEN_SOCKET;
     ERROR_SRT_SOCKET_CREATE; ERROR_SRT_SOCKET_BIND; ERROR_SRT_SOCKET_LISTEN; ERROR_CO_CREATE; ERROR_SYSTEM_IP_INVALID] /\
  sps_main hp_url (small_fs true) 0 (fun _ => Err ERROR_SOCKET_BIND) [str "sps"; str "conf/sps.conf"] = Err 1002 /\
  exit_status (@Err (list listener) 1002) = Some 234.
Proof. split; [repeat (constructor; [split; vm_compute; discriminate|]); constructor|split; vm_compute; reflexivity]. Qed.
Print Assumptions start_failure_reported.

(** C137: the first server block with a port decides its protocol and its
    transport: SRT for exactly "srt", TLS for exactly "https", plain TCP for any
    other text, also "SRT", "tls" or "udp". *)
Theorem port_transport : forall cl root ls p pr s t, install cl root = Ok ls -> first_on p (started root) (Some (pr, s)) ->
  asks s t -> exists L, get_server p ls = Some L /\ ls_proto L = pr /\ transport_of (sv_conf (ls_server L)) = t.
Proof.
  intros cl root ls p pr s t H Hf Ha. destruct (install_first_conf cl root ls p pr s H Hf) as (L & HL & Hp & Hc).
  exists L. split; [exact HL|]. split; [exact Hp|]. rewrite Hc. apply asks_transport. exact Ha.
Qed.
Definition sv (p t : string) (hs : list cmod) : cmod := CMod (str "server") [] [(str "listen_port", str p); (str "transport", str t)] hs.
Definition host_ (n : string) (sets : list (list Z * list Z)) : cmod := CMod (str "host") (str n) sets [].
Definition three : cmod := CMod (str "root") [] []
  [CMod (str "http") [] [] [sv "443" "https" [host_ "a" []]; sv "81" "SRT" []]; CMod (str "srt") [] [] [sv "6000" "srt" []; CMod (str "server") [] [(str "listen_port", str "6001")] []]].
Example port_transport_case : exists ls, install open_any three = Ok ls /\
  map (fun L => (ls_port L, ls_proto L, transport_of (sv_conf (ls_server L)))) ls =
    [(443, PHttp, TkTls); (81, PHttp, TkTcp); (6000, PSrt, TkSrt); (6001, PSrt, TkTcp)].
Proof. eexists. split; vm_compute; reflexivity. Qed.
Print Assumptions port_transport.

(** C137 fails for srt blocks: they serve SRT only with the transport set; with
    the default every connection is ended before a byte is exchanged. *)
Theorem srt_block_default_transport_refuses : forall lib cl root ls p s, install cl root = Ok ls ->
  first_on p (started root) (Some (PSrt, s)) -> opt_str s (str "transport") <> str "srt" ->
  exists L, get_server p ls = Some L /\ ls_proto L = PSrt /\
    forall sid, srt_prepare lib (io_of (transport_of (sv_conf (ls_server L)))) sid = Err ERROR_IO_EOF.
Proof.
  intros lib cl root ls p s H Hf Hn. destruct (port_transport cl root ls p PSrt s (transport_of s) H Hf (transport_asks s)) as (L & HL & Hp & Ht).
  exists L. split; [exact HL|]. split; [exact Hp|]. intros sid. rewrite Ht. pose proof (transport_asks s) as Ha.
  destruct (transport_of s); cbn [io_of srt_prepare]; try reflexivity. cbn [asks] in Ha. congruence.
Qed.
Example srt_block_default_case : exists ls s, install open_any three = Ok ls /\ first_on 6001 (started three) (Some (PSrt, s)) /\
  opt_str s (str "transport") = str "tcp".
Proof.
  eexists. exists (CMod (str "server") [] [(str "listen_port", str "6001")] []). split; [vm_compute; reflexivity|]. split; [|reflexivity].
  eexists [_; _; _], []. split; [reflexivity|]. split; [reflexivity|].
  intros y [<-|[<-|[<-|[]]]]; vm_compute; discriminate.
Qed.
Print Assumptions srt_block_default_transport_refuses.

(** C141: a server that listens does so on the configured port, on all
    addresses, when that is a port at all; larger and negative numbers are cut to
    16 bits without an error. *)
Theorem listen_port_low_bits : forall k s port q, listen_on k s port = Ok q ->
  q = port mod 65536 /\ (0 <= port <= 65535 -> q = port).
Proof.
  intros k s port q H. assert (K : q = u16 port).
  { unfold listen_on in H. destruct (transport_of s); unfold tcp_listen, srt_listen in H; cbv zeta in H;
      repeat match type of H with (if ?b then _ else _) = _ => destruct b end; congruence. }
  unfold u16 in K. change (2 ^ 16) with 65536 in K. subst q. split; [reflexivity|]. intros Hb. apply Z.mod_small. lia.
Qed.
Definition kern_ok : kern := mkk true true true true (fun _ => true) true true true (fun n => 16 <=? n) true.
Example listen_port_case : listen_on kern_ok (sv "8080" "tcp" []) 8080 = Ok 8080 /\ listen_on kern_ok (sv "65616" "srt" []) 65616 = Ok 80.
Proof. split; vm_compute; reflexivity. Qed.
Print Assumptions listen_port_low_bits.

(** C141 (refuted): a port number beyond 65535 is not reported. *)
Theorem listen_port_refuted : exists k s port q, opt_int s (str "listen_port") = port /\ 65535 < port /\ listen_on k s port = Ok q /\ q = 80.
Proof. exists kern_ok, (sv "65616" "tcp" []), 65616, 80. repeat split; vm_compute; reflexivity. Qed.
Print Assumptions listen_port_refuted.

(** C142: an SRT port that cannot be taken over from a UDP socket is refused;
    the second attempt made without reuse_port never succeeds with a library
    that wants the length of the address. *)
Theorem srt_listen_no_second_way : forall k reuse port q, k_srtbind k 0 = false -> srt_listen k reuse port = Ok q ->
  k_sock k = true /\ k_bind k (u16 port) = true /\ k_acquire k = true.
Proof.
  intros k reuse port q H0 H. unfold srt_listen in H. cbv zeta in H. destruct (negb (k_srtnew k)); [discriminate|].
  destruct (k_sock k && (negb reuse || k_reuseaddr k && k_reuseport k) && k_bind k (u16 port) && k_acquire k) eqn:E.
  - apply andb_true_iff in E. destruct E as (E & E3). apply andb_true_iff in E. destruct E as (E & E2). apply andb_true_iff in E. destruct E as (E1 & _). auto.
  - destruct reuse; [discriminate|]. rewrite H0 in H. discriminate.
Qed.
Example srt_listen_case : k_srtbind kern_ok 0 = false /\ srt_listen kern_ok false 6000 = Ok 6000 /\
  srt_listen (mkk true true true true (fun _ => true) true true false (fun n => 16 <=? n) true) false 6000 = Err ERROR_SRT_SOCKET_BIND.
Proof. repeat split; vm_compute; reflexivity. Qed.
Print Assumptions srt_listen_no_second_way.

(** C163: a server block shares its port exactly if the value of its last
    reuse_port line begins with "on"; without such a line it does not.  On a
    kernel that has everything but shared ports this is the difference between
    listening and an error. *)
Theorem reuse_port_rule : forall k s port v, cm_type s = str "server" ->
  (~ In (str "reuse_port") (map fst (cm_sets s)) /\ v = [] \/
   exists a b, cm_sets s = a ++ (str "reuse_port", v) :: b /\ ~ In (str "reuse_port") (map fst b)) ->
  k_sock k = true -> k_open k = true -> k_reuseaddr k = true -> k_reuseport k = false -> k_listen k = true ->
  (forall p, k_bind k p = true) -> k_srtnew k = true -> k_acquire k = true -> k_srtlisten k = true ->
  ((exists w, v = 111 :: 110 :: w) -> exists e, In e [ERROR_SOCKET_SETREUSE; ERROR_SRT_SOCKET_CREATE] /\ listen_on k s port = Err e) /\
  (~ (exists w, v = 111 :: 110 :: w) -> listen_on k s port = Ok (port mod 65536)).
Proof.
  intros k s port v Ht Hv H1 H2 H3 H4 H5 H6 H7 H8 H9.
  assert (E : opt_bool s (str "reuse_port") = true <-> exists w, v = 111 :: 110 :: w).
  { unfold opt_bool, opt_text. rewrite Ht.
    replace (match options_of (str "server") with Some os => match find_opt os (str "reuse_port") with Some (_, d) => last_set (str "reuse_port") (cm_sets s) d | None => [] end | None => [] end)
      with (last_set (str "reuse_port") (cm_sets s) (str "off")) by reflexivity.
    destruct Hv as [(Hn & ->)|(a & b & Hs & Hn)].
    - rewrite last_set_none by exact Hn. split; [discriminate|]. intros (w & E). discriminate.
    - rewrite Hs, last_set_app. cbn [last_set fst snd]. rewrite eqb_list_refl, last_set_none by exact Hn.
      rewrite eqb_list_spec. change (str "on") with [111; 110]. destruct v as [|x [|y v]].
      + split; [discriminate|]. intros (w & E). discriminate.
      + split; [discriminate|]. intros (w & E). discriminate.
      + change (take 2 (x :: y :: v)) with [x; y]. split; [intros [= -> ->]; eauto|]. intros (w & E). congruence. }
  unfold listen_on, tcp_listen, srt_listen. rewrite H1, H2, H3, H4, H5, H6, H7, H8, H9. split; intros Hw.
  - apply E in Hw. rewrite Hw. destruct (transport_of s); cbn; eauto.
  - destruct (opt_bool s (str "reuse_port")); [exfalso; apply Hw, E; reflexivity|]. destruct (transport_of s); cbn; reflexivity.
Qed.
Definition kern_noshare : kern := mkk true true true false (fun _ => true) true true true (fun n => 16 <=? n) true.
Definition shares (v : string) (tr : string) : cmod := CMod (str "server") [] [(str "transport", str tr); (str "reuse_port", str v)] [].
Example reuse_port_case : listen_on kern_noshare (shares "on" "tcp") 80 = Err ERROR_SOCKET_SETREUSE /\
  listen_on kern_noshare (shares "only" "srt") 80 = Err ERROR_SRT_SOCKET_CREATE /\ listen_on kern_noshare (shares "yes" "tcp") 80 = Ok 80 /\
  listen_on kern_noshare (CMod (str "server") [] [] []) 80 = Ok 80.
Proof. repeat split; vm_compute; reflexivity. Qed.
Print Assumptions reuse_port_rule.

(** C138: on an https port a client that names its host is shown the
    certificate of the host that will serve that name, and no other. *)
Theorem tls_certificate_of_host : forall CL cl root ls p s L name crt key, nul_free root -> install cl root = Ok ls ->
  first_on p (started root) (Some (PHttp, s)) -> get_server p ls = Some L ->
  fst (tls_cert CL L (Some name)) = Ok tt /\
  (shown CL (snd (tls_cert CL L (Some name))) = Some (crt, key) <->
   certificate_for (own_hosts s ++ global_of root) name crt key /\ usable CL crt key).
Proof.
  intros CL cl root ls p s L name crt key Hn H Hf HL. destruct (install_first cl root ls p _ Hn H Hf) as (L' & HL' & Hp & Hr).
  assert (L' = L) by congruence. subst L'. unfold tls_cert, tls_settings. rewrite Hp. cbn [fst snd]. split; [reflexivity|].
  unfold sni_callback. destruct (cert_search (ls_router L) name) as [c|e| |] eqn:E.
  - apply (cert_search_ok _ _ name c Hr (ro_nodup _ _ Hr)) in E. assert (E' := E). destruct E' as (h & Hh & Hc & Hk & N1 & N2).
    pose proof (ssl_verify_both CL c N1 N2) as (V & _). destruct (ssl_verify CL c ld_none) as [x s1]. cbn [snd] in *. rewrite V. split.
    + destruct (cl_crt CL (sc_crt c) && cl_key CL (sc_key c) && cl_pair CL (sc_crt c) (sc_key c)) eqn:U; [|discriminate].
      intros K. injection K as <- <-. apply andb_true_iff in U. destruct U as (U & U3). apply andb_true_iff in U. destruct U as (U1 & U2).
      split; [exact E|]. split; [exact U1|]. split; assumption.
    + intros ((h2 & Hh2 & Hc2 & Hk2 & _) & (U1 & U2 & U3)).
      assert (Some h2 = Some h) by (eapply serves_unique; [exact (ro_nodup _ _ Hr)|exact Hh2|exact Hh]). injection H0 as ->.
      rewrite Hc2, <- Hc in *. rewrite Hk2, <- Hk in *. rewrite U1, U2, U3. reflexivity.
  - cbn [snd ld_none shown ld_crt]. split; [discriminate|]. intros (K & _).
    assert (certificate_for (own_hosts s ++ global_of root) name (sc_crt (mksc crt key)) (sc_key (mksc crt key))) as K2 by exact K.
    apply (cert_search_ok _ _ name (mksc crt key) Hr (ro_nodup _ _ Hr)) in K2. congruence.
  - cbn [snd ld_none shown ld_crt]. split; [discriminate|]. intros (K & _).
    apply (cert_search_ok _ _ name (mksc crt key) Hr (ro_nodup _ _ Hr)) in K. congruence.
  - cbn [snd ld_none shown ld_crt]. split; [discriminate|]. intros (K & _).
    apply (cert_search_ok _ _ name (mksc crt key) Hr (ro_nodup _ _ Hr)) in K. congruence.
Qed.
Definition any_cert : certlib := mkcl (fun _ => true) (fun _ => true) (fun c k => eqb_list (take 1 c) (take 1 k)).
Definition secure : cmod := CMod (str "root") [] []
  [CMod (str "http") [] []
     [CMod (str "server") [] [(str "listen_port", str "443"); (str "transport", str "https"); (str "ssl_crt_file", str "s.crt"); (str "ssl_key_file", str "s.key")]
        [host_ "a.org" [(str "ssl_crt_file", str "a.crt"); (str "ssl_key_file", str "a.key")];
         host_ "*.b.org" [(str "ssl_crt_file", str "b.crt"); (str "ssl_key_file", str "b.key")]; host_ "c.org" []]];
   CMod (str "rtmp") [] [] [sv "1935" "https" [host_ "a.org" [(str "ssl_crt_file", str "a.crt"); (str "ssl_key_file", str "a.key")]]]].
Example tls_certificate_case : exists ls L M, install open_any secure = Ok ls /\ get_server 443 ls = Some L /\ get_server 1935 ls = Some M /\
  shown any_cert (snd (tls_cert any_cert L (Some (str "a.org")))) = Some (str "a.crt", str "a.key") /\
  shown any_cert (snd (tls_cert any_cert L (Some (str "x.b.org")))) = Some (str "b.crt", str "b.key") /\
  shown any_cert (snd (tls_cert any_cert L (Some (str "c.org")))) = None /\ shown any_cert (snd (tls_cert any_cert L None)) = None /\
  fst (tls_cert any_cert M (Some (str "a.org"))) = Err ERROR_SSL_HANDSHAKE.
Proof. eexists _, _, _. split; [vm_compute; reflexivity|]. repeat split; vm_compute; reflexivity. Qed.
Print Assumptions tls_certificate_of_host.

(** C138 fails for clients that send no name: they are shown nothing. *)
Theorem tls_no_name_no_certificate : forall CL L, ls_proto L = PHttp -> tls_cert CL L None = (Ok tt, ld_none) /\ shown CL ld_none = None.
Proof. intros CL L H. unfold tls_cert, tls_settings. rewrite H. split; reflexivity. Qed.
Example tls_no_name_case : ls_proto (mkls 443 PHttp rt_new (mksv (sv "443" "https" []) [])) = PHttp.
Proof. reflexivity. Qed.
Print Assumptions tls_no_name_no_certificate.

(** C139 (refuted): the certificate of a server block is not used for the names
    its hosts have none for. *)
Theorem tls_server_certificate_refuted : exists cl root ls p s L name, nul_free root /\ install cl root = Ok ls /\
  first_on p (started root) (Some (PHttp, s)) /\ get_server p ls = Some L /\ asks s TkTls /\
  opt_str s (str "ssl_crt_file") <> [] /\ opt_str s (str "ssl_key_file") <> [] /\
  usable any_cert (opt_str s (str "ssl_crt_file")) (opt_str s (str "ssl_key_file")) /\
  shown any_cert (snd (tls_cert any_cert L name)) = None.
Proof.
  exists open_any, secure. eexists. exists 443. eexists _, _, (Some (str "c.org")).
  split. { intros pr s h Hs Hh Hz. vm_compute in Hs. destruct Hs as [Hs|[Hs|[]]]; injection Hs as <- <-; vm_compute in Hh;
    repeat (destruct Hh as [<-|Hh]; [vm_compute in Hz; repeat (destruct Hz as [Hz|Hz]; [discriminate|]); destruct Hz|]); destruct Hh. }
  split; [vm_compute; reflexivity|]. split; [eexists [], _; split; [reflexivity|split; [reflexivity|intros y []]]|].
  split; [vm_compute; reflexivity|]. repeat split; vm_compute; discriminate || reflexivity.
Qed.
Print Assumptions tls_server_certificate_refuted.
(** C139: it never is: whatever the server block says, a client whose host has no
    usable pair of its own is shown nothing. *)
Theorem tls_server_certificate_ignored : forall CL cl root ls p s L name, nul_free root -> install cl root = Ok ls ->
  first_on p (started root) (Some (PHttp, s)) -> get_server p ls = Some L ->
  (forall crt key, certificate_for (own_hosts s ++ global_of root) name crt key -> ~ usable CL crt key) ->
  shown CL (snd (tls_cert CL L (Some name))) = None.
Proof.
  intros CL cl root ls p s L name Hn Hi Hf Hg Hno. destruct (shown CL (snd (tls_cert CL L (Some name)))) as [[crt key]|] eqn:E; [|reflexivity].
  exfalso. destruct (tls_certificate_of_host CL cl root ls p s L name crt key Hn Hi Hf Hg) as (_ & H & _). destruct (H E) as (A & B). exact (Hno _ _ A B).
Qed.
Print Assumptions tls_server_certificate_ignored.

(** C140: TLS works in http blocks only: on an rtmp or srt port with that
    transport every handshake ends before anything is read or sent, whatever
    certificates are configured. *)
Theorem tls_other_blocks_refuse : forall CL cl root ls p pr s L, install cl root = Ok ls -> first_on p (started root) (Some (pr, s)) ->
  pr <> PHttp -> asks s TkTls -> get_server p ls = Some L ->
  transport_of (sv_conf (ls_server L)) = TkTls /\
  forall E (g : engine E) fuel k1 k2 name st,
    ssl_accept fuel g k1 k2 (fst (tls_cert CL L name)) st = (Err ERROR_SSL_HANDSHAKE, st).
Proof.
  intros CL cl root ls p pr s L H Hf Hp Ha HL. destruct (install_first_conf cl root ls p pr s H Hf) as (L' & HL' & Hp' & Hc).
  assert (L' = L) by congruence. subst L'. split; [rewrite Hc; apply asks_transport; exact Ha|].
  intros E g fuel k1 k2 name st. unfold tls_cert, tls_settings. rewrite Hp'. destruct pr; [congruence| |]; reflexivity.
Qed.
Example tls_other_blocks_case : exists ls L s, install open_any secure = Ok ls /\ get_server 1935 ls = Some L /\
  first_on 1935 (started secure) (Some (PRtmp, s)) /\ asks s TkTls.
Proof.
  eexists _, _, (sv "1935" "https" [host_ "a.org" [(str "ssl_crt_file", str "a.crt"); (str "ssl_key_file", str "a.key")]]). split; [vm_compute; reflexivity|].
  split; [vm_compute; reflexivity|]. split; [eexists [_], []; split; [reflexivity|split; [reflexivity|intros y [<-|[]]; vm_compute; discriminate]]|reflexivity].
Qed.
Print Assumptions tls_other_blocks_refuse.

(** C141: a TCP or TLS server that listens has made its socket, set its options
    and bound it to the port; an SRT server as well, or bound it with the library.
    If any of those steps fails the server does not listen. *)
Theorem listens_after_all_steps : forall k s port q, listen_on k s port = Ok q ->
  match transport_of s with
  | TkSrt => k_srtnew k = true /\ k_srtlisten k = true /\
      ((k_sock k = true /\ k_bind k (u16 port) = true /\ k_acquire k = true /\
        (opt_bool s (str "reuse_port") = true -> k_reuseaddr k = true /\ k_reuseport k = true)) \/
       (opt_bool s (str "reuse_port") = false /\ k_srtbind k 0 = true))
  | _ => k_sock k = true /\ k_open k = true /\ k_reuseaddr k = true /\ k_bind k (u16 port) = true /\ k_listen k = true /\
      (opt_bool s (str "reuse_port") = true -> k_reuseport k = true)
  end.
Proof.
  intros k s port q H. unfold listen_on in H.
  assert (T : forall r, tcp_listen k r port = Ok q -> k_sock k = true /\ k_open k = true /\ k_reuseaddr k = true /\ k_bind k (u16 port) = true /\ k_listen k = true /\
      (r = true -> k_reuseport k = true)).
  { clear H. intros r H. unfold tcp_listen in H.
    destruct (k_sock k), (k_open k), (k_reuseaddr k), r, (k_reuseport k), (k_bind k (u16 port)), (k_listen k); cbn in H; try discriminate; repeat split; congruence. }
  destruct (transport_of s); [apply T, H| |apply T, H]. unfold srt_listen in H. cbv zeta in H.
  destruct (k_srtnew k), (k_sock k), (opt_bool s (str "reuse_port")), (k_reuseaddr k), (k_reuseport k), (k_bind k (u16 port)), (k_acquire k), (k_srtlisten k), (k_srtbind k 0);
    cbn in H; try discriminate; (split; [reflexivity|]; split; [reflexivity|]); ((left; repeat split; congruence) || (right; split; reflexivity)).
Qed.
Print Assumptions listens_after_all_steps.
Example listens_after_case : listen_on kern_ok (sv "8080" "tcp" []) 8080 = Ok 8080 /\
  listen_on (mkk true true true true (fun p => negb (p =? 80)) true true true (fun n => 16 <=? n) true) (sv "80" "tcp" []) 80 = Err ERROR_SOCKET_BIND.
Proof. split; vm_compute; reflexivity. Qed.

(** C193: the kinds of URL there are readers for: of all well-formed URLs, those with
    the schemas http, file and rtmp and no others. *)
Theorem url_kinds : forall lib schema host port path query, url_lib_ok lib -> url_wf schema host port path query ->
  (In schema [str "http"; str "file"; str "rtmp"] -> (schema = str "file" -> port = None /\ query = None) ->
   url_create lib (url_text schema host port path query) = Ok (Some schema)) /\
  (~ In schema [str "http"; str "file"; str "rtmp"] -> url_create lib (url_text schema host port path query) = Ok None).
Proof.
  intros lib schema host port path query Hl Hwf.
  assert (N : schema <> str "file" -> url_create lib (url_text schema host port path query) =
    Ok (if existsb (eqb_list schema) url_schemas then Some schema else None)).
  { intros Hf. unfold url_create, url_from. destruct (parse_url_ok lib rq_new schema host port path query Hl Hwf eq_refl eq_refl eq_refl Hf) as (pp & _ & ->). reflexivity. }
  split.
  - intros Hi Hp. destruct (list_Z_eq_dec schema (str "file")) as [E|E].
    + destruct (Hp E) as (-> & ->). subst schema. rewrite file_text. apply (url_create_file lib host path Hl Hwf).
    + rewrite (N E). destruct Hi as [<-|[<-|[<-|[]]]]; reflexivity.
  - intros Hn. rewrite N by (intros ->; apply Hn; right; left; reflexivity).
    destruct (existsb (eqb_list schema) url_schemas) eqn:X; [|reflexivity].
    apply existsb_exists in X. destruct X as (y & Hy & Ey). apply eqb_list_spec in Ey. subst y. contradiction.
Qed.
Print Assumptions url_kinds.
Example url_kinds_case : url_create hp_url (str "rtmp://a.b:1935/live/x") = Ok (Some (str "rtmp")) /\ url_create hp_url (str "ftp://a.b/x") = Ok None /\
  url_wf (str "rtmp") (str "a.b") (Some (str "1935")) (Some (str "/live/x")) None.
Proof. split; [vm_compute; reflexivity|]. split; [vm_compute; reflexivity|wf_solve]. Qed.
