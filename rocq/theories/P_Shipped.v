(** Properties of a server started with one of the delivered configuration files. *)
From Verif Require Import Base M_Text M_Conf M_Url M_Host M_Http M_Stream S_Url S_Http L_Url M_Edge S_Edge P_Url L_Stream P_Stream P_Edge M_Shipped S_Shipped L_Shipped.

(** C189: with conf/sps.conf the server opens exactly the ports 80, 8000 and
    1935 in that order, and on each of them does for every name of a host, also
    one not mentioned, what the table says.  A port that cannot be opened stops it. *)
Theorem sps_conf_starts : starts_as sps_conf sps_table.
Proof.
  apply starts_by_check; [vm_compute; reflexivity|vm_compute; reflexivity|].
  intros can_listen. vm_compute. destruct (can_listen 80); [|reflexivity..]. destruct (can_listen 8000); [|reflexivity..]. destruct (can_listen 1935); reflexivity.
Qed.
Print Assumptions sps_conf_starts.
Example sps_conf_nonvacuous :
  (exists h, route (ls_of sps_conf) 1935 (str "localhost") = Some (Some h) /\ does h (ToStream None (Some ("127.0.0.1"%string, 80)))) /\
  route (ls_of sps_conf) 80 (str "GITHUB80.com") = Some None /\ route (ls_of sps_conf) 443 (str "localhost") = None /\
  install (fun p => if p =? 8000 then Err (-98) else Ok tt) (root_of sps_conf) = Err (-98).
Proof.
  split; [|vm_compute; repeat split].
  eexists. split; [vm_compute; reflexivity|]. apply doesb_ok. vm_compute. reflexivity.
Qed.

(** The same of conf/srt.conf and conf/https.conf. *)
Theorem srt_conf_starts : starts_as srt_conf srt_table.
Proof.
  apply starts_by_check; [vm_compute; reflexivity|vm_compute; reflexivity|].
  intros can_listen. vm_compute. destruct (can_listen 8001); [|reflexivity..]. destruct (can_listen 1935); [|reflexivity..]. destruct (can_listen 6000); reflexivity.
Qed.
Print Assumptions srt_conf_starts.
Theorem https_conf_starts : starts_as https_conf https_table.
Proof.
  apply starts_by_check; [vm_compute; reflexivity|vm_compute; reflexivity|].
  intros can_listen. vm_compute. destruct (can_listen 445); reflexivity.
Qed.
Print Assumptions https_conf_starts.
Example other_conf_nonvacuous :
  install (fun p => if p =? 1935 then Err (-13) else Ok tt) (root_of srt_conf) = Err (-13) /\
  (exists h, route (ls_of https_conf) 445 (str "localhost") = Some (Some h) /\ does h (ToProxy "www.baidu.com" 80)).
Proof.
  split; [vm_compute; reflexivity|].
  eexists. split; [vm_compute; reflexivity|]. apply doesb_ok. vm_compute. reflexivity.
Qed.

(** C190: conf/sps.conf declares an upstream "github" with the server
    github.com:80 and names it in pass_proxy.  Requests do not go to that
    server: they go to a machine called "github". *)
Theorem shipped_upstream_used_refuted : exists root u g h,
  load_conf sps_conf = Ok root /\ In u (cm_subs root) /\ cm_type u = str "upstream" /\ cm_name u = str "github" /\
  opt_str u (str "server") = str "github.com:80" /\
  In g (cm_subs root) /\ In h (cm_subs g) /\ cm_name h = str "www.github.com" /\ opt_str h (str "pass_proxy") = cm_name u /\
  adapter h = AProxy /\ proxy_info h 80 = (str "github", 80) /\ str "github" <> str "github.com".
Proof.
  exists (root_of sps_conf), (nth 2 (cm_subs (root_of sps_conf)) (CMod [] [] [] [])), (nth 3 (cm_subs (root_of sps_conf)) (CMod [] [] [] [])),
    (nth 0 (cm_subs (nth 3 (cm_subs (root_of sps_conf)) (CMod [] [] [] []))) (CMod [] [] [] [])).
  split; [vm_compute; reflexivity|]. split; [apply nth_In; vm_compute; lia|].
  split; [vm_compute; reflexivity|]. split; [vm_compute; reflexivity|]. split; [vm_compute; reflexivity|].
  split; [apply nth_In; vm_compute; lia|]. split; [apply nth_In; vm_compute; lia|].
  do 4 (split; [vm_compute; reflexivity|]). vm_compute. discriminate.
Qed.
Print Assumptions shipped_upstream_used_refuted.

(** C191: the edge of conf/sps.conf works by itself.  A player of /p.e on the host
    "localhost" makes the server ask 127.0.0.1, port 80, that is itself, with a
    request that every HTTP server reads as one for the stream that is published
    on the host "127.0.0.1" under the same path; on port 80 that name is served
    by the host that takes publishers of every format. *)
Theorem shipped_edge_own_source : forall ulib ulib2 r p e query,
  url_lib_ok ulib -> url_lib_ok ulib2 -> rq_schema r = str "http" -> url_wf (str "http") (str "127.0.0.1") None (Some (p ++ 46 :: e)) query ->
  without 46 e -> e <> [] -> e <> str "-" -> zlen (p ++ 46 :: e) < 2 ^ 64 ->
  rq_url r = (p ++ 46 :: e) ++ match query with Some q => 63 :: q | None => [] end ->
  exists h src q, route (ls_of sps_conf) 80 (str "localhost") = Some (Some h) /\ is_edge h = true /\
    route (ls_of sps_conf) 80 (str "127.0.0.1") = Some (Some src) /\ does src (ToStream (Some "all"%string) None) /\
    edge_target ulib h r = Ok (Some (str "127.0.0.1", 80, q)) /\
    forall plib, reads_request plib (pull_text q) ->
    exists n u m fs r2, 0 < n /\ plib (pull_text q) = (n, (u, m, fs)) /\ request_of ulib2 u m fs = (Ok 0, r2) /\
      cache_key r2 = str "127.0.0.1" ++ p /\ rq_ext r2 = e.
Proof.
  intros ulib ulib2 r p e query Hl Hl2 Hs Hwf H46 He Hd Hlen Hu.
  set (l80 := nth 0 (ls_of sps_conf) (mkls 0 PHttp rt_new (mksv (CMod [] [] [] []) []))).
  set (hn := fun n => snd (nth n (rt_exact (ls_router l80)) ([], CMod [] [] [] []))).
  exists (hn 4%nat), (hn 3%nat).
  assert (Hup : forall m, In m (cm_subs (hn 4%nat)) -> cm_type m <> str "upstream") by (vm_compute; intros m []).
  assert (Hpu : opt_str (hn 4%nat) (str "pass_url") = []) by (vm_compute; reflexivity).
  assert (Hpp : opt_str (hn 4%nat) (str "pass_proxy") = str "127.0.0.1" ++ []) by (vm_compute; reflexivity).
  assert (R1 : route (ls_of sps_conf) 80 (str "localhost") = Some (Some (hn 4%nat))) by (vm_compute; reflexivity).
  assert (R2 : route (ls_of sps_conf) 80 (str "127.0.0.1") = Some (Some (hn 3%nat))) by (vm_compute; reflexivity).
  assert (E1 : is_edge (hn 4%nat) = true) by (vm_compute; reflexivity).
  assert (D : doesb (hn 3%nat) (ToStream (Some "all"%string) None) = true) by (vm_compute; reflexivity).
  generalize dependent (hn 4%nat). generalize dependent (hn 3%nat). clear hn l80. intros src R2 D h Hup Hpu Hpp R1 E1.
  destruct (edge_names_stream ulib ulib2 h r _ None p e query Hl Hl2 Hs Hwf H46 He Hd Hlen Hu Hpu Hup Hpp) as (q & pt & Ht & _ & K).
  assert (Hpt : pt = 80).
  { rewrite <- Hs in Hwf. destruct (edge_pulls_same_path ulib h r (str "127.0.0.1") None _ query Hl Hwf ltac:(rewrite Hs; discriminate) Hu Hpu Hup Hpp) as (q2 & p2 & T2 & _ & S2 & _).
    rewrite Ht in T2. injection T2 as <- <-. rewrite Hs in S2. destruct S2 as [(X & _)|[(X & _)|(_ & _ & X)]]; [discriminate X|discriminate X|exact X]. }
  subst pt. exists q. split; [exact R1|]. split; [exact E1|]. split; [exact R2|]. split; [apply doesb_ok; exact D|]. split; [exact Ht|].
  intros plib Hp. destruct (K plib Hp) as (n & u & m & fs & r2 & A1 & A2 & A3 & A4 & A5 & _). exists n, u, m, fs, r2. auto 6.
Qed.
Print Assumptions shipped_edge_own_source.
(** A player of http://localhost/live/x.flv. *)
Example shipped_edge_nonvacuous :
  let r := mkrq (str "/live/x.flv") (str "GET") (str "http") 80 (str "localhost") (str "/live/x.flv") (str "flv") [] [] [] in
  url_wf (str "http") (str "127.0.0.1") None (Some (str "/live/x" ++ 46 :: str "flv")) None /\ cache_key r = str "localhost/live/x" /\
  exists h q, route (ls_of sps_conf) 80 (str "localhost") = Some (Some h) /\ edge_target hp_url h r = Ok (Some (str "127.0.0.1", 80, q)) /\
    pull_text q = str "GET /live/x.flv HTTP/1.1" ++ [13; 10] ++ str "Host: 127.0.0.1" ++ [13; 10] ++ str "Accept: */" ++ [13; 10] ++ str "Content-Length: 0" ++ [13; 10; 13; 10].
Proof.
  cbv zeta. split; [change (str "/live/x" ++ 46 :: str "flv") with (str "/live/x.flv"); wf_solve|]. split; [reflexivity|]. eexists. eexists. split; [vm_compute; reflexivity|]. split; [vm_compute; reflexivity|]. vm_compute. reflexivity.
Qed.
