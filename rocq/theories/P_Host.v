(** Properties of virtual hosts and servers. *)
From Verif Require Import Base M_Text M_Conf M_Host S_Url L_Url S_Conf L_Conf S_Host L_Host.

Definition host_ (n : string) : cmod := CMod (str "host") (str n) [] [].
(** C34: which host serves a request. *)
Theorem host_lookup : forall hs r q, Forall (fun h => no_nul (cm_name h)) hs -> get_router hs = Ok r ->
  forall x, find_host r q = x <-> serves hs q x.
Proof.
  intros hs r q Hn H x. pose proof (get_router_of hs r Hn H) as Hr. pose proof (find_host_serves r hs q Hr) as Hs. split.
  - intros <-. exact Hs.
  - intros Hx. exact (serves_unique hs q _ _ (ro_nodup _ _ Hr) Hs Hx).
Qed.
Print Assumptions host_lookup.
Example host_lookup_nonvacuous :
  exists r, get_router [host_ "a.b.com"; host_ "*.b.com"; host_ "*"; host_ "*.com"] = Ok r /\
    find_host r (str "a.b.com") = Some (host_ "a.b.com") /\ find_host r (str "x.b.com") = Some (host_ "*.b.com") /\
    find_host r (str "y.x.b.com") = Some (host_ "*") /\ find_host r (str "b.com") = Some (host_ "*.com") /\ find_host r [] = Some (host_ "*").
Proof. eexists. repeat split; reflexivity. Qed.
(** A table is accepted exactly when its names are valid and different. *)
Theorem host_table_accepted : forall hs, Forall (fun h => no_nul (cm_name h)) hs ->
  ((exists r, get_router hs = Ok r) <-> Forall (fun h => valid_name (cm_name h)) hs /\ NoDup (map cm_name hs)) /\
  ((forall r, get_router hs <> Ok r) -> get_router hs = Err ERROR_CONFIG_PARSE_INVALID).
Proof.
  intros hs Hn. destruct (register_all_spec hs rt_new [] rt_new_of Hn) as [(r & E & Hr)|(E & Hbad)].
  - cbn [app] in Hr. split.
    + split; [|intros _; exists r; exact E]. intros _. split; [exact (ro_valid _ _ Hr)|exact (ro_nodup _ _ Hr)].
    + intros H. exfalso. exact (H r E).
  - cbn [app] in Hbad. split; [|intros _; exact E]. split.
    + intros (r & H). unfold get_router in H. rewrite E in H. discriminate.
    + intros H. contradiction.
Qed.
Print Assumptions host_table_accepted.
Example host_table_accepted_nonvacuous :
  get_router [host_ "a"; host_ "b"; host_ "a"] = Err ERROR_CONFIG_PARSE_INVALID /\
  get_router [host_ "*a"] = Err ERROR_CONFIG_PARSE_INVALID /\ get_router [host_ "*."] = Err ERROR_CONFIG_PARSE_INVALID /\
  (exists r, get_router [host_ "a"; host_ "*.a"; host_ "*"] = Ok r).
Proof. repeat split; try reflexivity. eexists. reflexivity. Qed.

(** C73: merging two tables loses the default host of the second. *)
Theorem host_merge_default_lost : forall r o d r', rt_default r = None -> rt_default o = Some d ->
  rt_merge r o = (r', Ok tt) -> rt_default r' = None.
Proof.
  intros r o d r' Hr Ho. unfold rt_merge. rewrite Hr. clear Ho.
  destruct (hm_merge (rt_exact r) (rt_exact o)) as [e [u| | |]]; try discriminate.
  destruct (hm_merge (rt_wild r) (rt_wild o)) as [w x]. intros H. injection H as <- _. reflexivity.
Qed.
Print Assumptions host_merge_default_lost.
Example host_merge_nonvacuous : rt_merge (mkrt [(str "a", host_ "a")] [] None) (mkrt [(str "b", host_ "b")] [] (Some (host_ "*")))
  = (mkrt [(str "a", host_ "a"); (str "b", host_ "b")] [] None, Ok tt).
Proof. reflexivity. Qed.

(** ** Servers *)
Definition server_ (p : string) (hs : list cmod) : cmod := CMod (str "server") [] [(str "listen_port", str p)] hs.
Definition root_ (l : list cmod) : cmod := CMod (str "root") [] [] l.
Definition open_any : Z -> res unit := fun _ => Ok tt.
(** C35: every port is served by the first server block that names it, with
    that block's hosts and the global ones; the others are without effect. *)
Theorem install_first_block : forall cl root ls p, nul_free root -> install cl root = Ok ls ->
  (forall ps, first_on p (started root) ps ->
   match ps with
   | None => forall q, route ls p q = None
   | Some (pr, s) =>
       (exists L, get_server p ls = Some L /\ ls_proto L = pr) /\
       forall q, exists x, route ls p q = Some x /\ serves (own_hosts s ++ global_of root) q x
   end) /\ exists ps, first_on p (started root) ps.
Proof.
  intros cl root ls p Hn H. split; [|apply find_started]. intros ps Hf. pose proof (install_first cl root ls p ps Hn H Hf) as Hr.
  destruct ps as [[pr s]|].
  - destruct Hr as (L & HL & Hpr & Hro). split; [exists L; split; assumption|]. intros q. unfold route. rewrite HL. eexists. split; [reflexivity|].
    apply find_host_serves. exact Hro.
  - intros q. unfold route. rewrite Hr. reflexivity.
Qed.
Print Assumptions install_first_block.
Definition two_blocks : cmod :=
  root_ [CMod (str "http") [] [] [server_ "80" [host_ "a"]; server_ "80" [host_ "b"]];
         CMod (str "rtmp") [] [] [server_ "80" [host_ "c"]; server_ "1935" [host_ "d"]];
         CMod (str "globalhost") [] [] [host_ "g"]].
Example install_first_block_nonvacuous : exists ls, install open_any two_blocks = Ok ls /\
  route ls 80 (str "a") = Some (Some (host_ "a")) /\ route ls 80 (str "b") = Some None /\ route ls 80 (str "c") = Some None /\
  route ls 80 (str "g") = Some (Some (host_ "g")) /\ route ls 1935 (str "d") = Some (Some (host_ "d")).
Proof. eexists. repeat split; vm_compute; reflexivity. Qed.
(** A host of a later block on the same port is never chosen. *)
Theorem install_later_block_ignored : forall cl root ls a x b h q, nul_free root -> install cl root = Ok ls ->
  started root = a ++ x :: b -> (forall y, In y a -> port_of (snd y) <> port_of (snd x)) ->
  route ls (port_of (snd x)) q = Some (Some h) -> In h (own_hosts (snd x)) \/ In h (global_of root).
Proof.
  intros cl root ls a [pr s] b h q Hn H Hs Ha Hr. cbn [snd] in *.
  assert (Hf : first_on (port_of s) (started root) (Some (pr, s))) by (exists a, b; split; [exact Hs|split; [reflexivity|exact Ha]]).
  destruct (proj1 (install_first_block cl root ls (port_of s) Hn H) _ Hf) as (_ & Hq). destruct (Hq q) as (x & Hx & Hsv).
  rewrite Hr in Hx. injection Hx as <-. apply in_app_or.
  inversion Hsv; assumption.
Qed.
Print Assumptions install_later_block_ignored.
Example install_later_block_nonvacuous : exists ls a b,
  install open_any two_blocks = Ok ls /\ started two_blocks = a ++ (PHttp, server_ "80" [host_ "a"]) :: b /\ a = [] /\
  In (PHttp, server_ "80" [host_ "b"]) b /\ route ls 80 (str "a") = Some (Some (host_ "a")) /\ route ls 80 (str "b") = Some None.
Proof. do 3 eexists. split; [vm_compute; reflexivity|]. split; [instantiate (2 := []); vm_compute; reflexivity|]. split; [reflexivity|]. split; [vm_compute; tauto|]. split; vm_compute; reflexivity. Qed.
(** C74: an rtmp or srt server on a port of an http server never listens. *)
Theorem install_port_shared : forall cl root ls s s' pr, nul_free root -> install cl root = Ok ls ->
  In (PHttp, s) (started root) -> In (pr, s') (started root) -> port_of s' = port_of s -> pr <> PHttp ->
  forall L, get_server (port_of s') ls = Some L -> ls_proto L = PHttp.
Proof.
  intros cl root ls s s' pr Hn H Hs Hs' Hp Hpr L HL. destruct (find_started (port_of s) root) as (ps & Hf).
  rewrite Hp in HL. pose proof (install_first cl root ls _ ps Hn H Hf) as Hr.
  destruct ps as [[pr1 s1]|]; [|rewrite Hr in HL; discriminate]. destruct Hr as (L' & HL' & Hpr1 & _). rewrite HL in HL'. injection HL' as <-.
  rewrite Hpr1. destruct Hf as (a & b & E & Hp1 & Ha). destruct pr1; [reflexivity| |];
    exfalso; apply (Ha (PHttp, s)); try reflexivity.
  all: unfold started in E, Hs; apply in_app_or in Hs; destruct Hs as [Hs|Hs];
    [|exfalso; apply in_app_or in Hs; destruct Hs as [Hs|Hs]; apply in_flat_map in Hs; destruct Hs as (? & _ & Hs); apply in_map_iff in Hs; destruct Hs as (? & Hs & _); discriminate].
  all: match type of E with ?u ++ ?v = _ => remember u as U; remember v as V end.
  all: assert (HU : Forall (fun x => fst x = PHttp) U)
      by (subst U; apply Forall_forall; intros x Hx; apply in_flat_map in Hx; destruct Hx as (? & _ & Hx); apply in_map_iff in Hx; destruct Hx as (? & <- & _); reflexivity).
  all: refine (front_in _ U V a b _ _ E HU _ Hs); discriminate.
Qed.
Print Assumptions install_port_shared.
Example install_port_shared_nonvacuous : In (PHttp, server_ "80" [host_ "a"]) (started two_blocks) /\
  In (PRtmp, server_ "80" [host_ "c"]) (started two_blocks).
Proof. split; vm_compute; [left; reflexivity|right; right; left; reflexivity]. Qed.
(** C75: a server started knows its hosts by different, valid names; in
    particular a server cannot redefine a global host. *)
Theorem install_names_distinct : forall cl root ls p pr s, nul_free root -> install cl root = Ok ls ->
  first_on p (started root) (Some (pr, s)) ->
  NoDup (map cm_name (own_hosts s ++ global_of root)) /\ Forall (fun h => valid_name (cm_name h)) (own_hosts s ++ global_of root).
Proof.
  intros cl root ls p pr s Hn H Hf. destruct (install_first cl root ls p _ Hn H Hf) as (L & _ & _ & Hro).
  split; [exact (ro_nodup _ _ Hro)|exact (ro_valid _ _ Hro)].
Qed.
Print Assumptions install_names_distinct.
Example two_blocks_nul_free : nul_free two_blocks.
Proof.
  intros pr s h Hs Hh Hz.
  assert (Hc : forallb (fun x => forallb (fun h => negb (existsb (Z.eqb 0) (cm_name h))) (own_hosts (snd x) ++ global_of two_blocks)) (started two_blocks) = true) by (vm_compute; reflexivity).
  rewrite forallb_forall in Hc. specialize (Hc _ Hs). rewrite forallb_forall in Hc. specialize (Hc _ Hh).
  assert (He : existsb (Z.eqb 0) (cm_name h) = true) by (apply existsb_exists; exists 0; split; [exact Hz|reflexivity]). rewrite He in Hc. discriminate.
Qed.
Example install_names_distinct_nonvacuous : exists ls, nul_free two_blocks /\ install open_any two_blocks = Ok ls /\
  first_on 80 (started two_blocks) (Some (PHttp, server_ "80" [host_ "a"])) /\
  map cm_name (own_hosts (server_ "80" [host_ "a"]) ++ global_of two_blocks) = [str "a"; str "g"].
Proof.
  eexists. split; [exact two_blocks_nul_free|]. split; [vm_compute; reflexivity|].
  split; [exists []; eexists; split; [vm_compute; reflexivity|split; [vm_compute; reflexivity|intros y []]]|vm_compute; reflexivity].
Qed.
Theorem install_global_not_overridable : forall cl root p pr s h g, nul_free root ->
  first_on p (started root) (Some (pr, s)) -> In h (own_hosts s) -> In g (global_of root) -> cm_name h = cm_name g ->
  forall ls, install cl root <> Ok ls.
Proof.
  intros cl root p pr s h g Hn Hf Hh Hg E ls H. destruct (install_names_distinct cl root ls p pr s Hn H Hf) as (Hnd & _).
  rewrite map_app in Hnd. apply in_split in Hh. destruct Hh as (a & b & Hh). rewrite Hh, map_app in Hnd. cbn [map] in Hnd.
  rewrite <- app_assoc in Hnd. cbn [app] in Hnd. apply NoDup_remove_2 in Hnd. apply Hnd. apply in_or_app. right. apply in_or_app. right. rewrite E. apply in_map. exact Hg.
Qed.
Print Assumptions install_global_not_overridable.
Example install_global_nonvacuous :
  let root := root_ [CMod (str "globalhost") [] [] [host_ "a"]; CMod (str "http") [] [] [server_ "80" [host_ "a"]]] in
  first_on 80 (started root) (Some (PHttp, server_ "80" [host_ "a"])) /\ install open_any root = Err ERROR_CONFIG_PARSE_INVALID.
Proof. split; [|vm_compute; reflexivity]. exists [], []. split; [reflexivity|]. split; [reflexivity|intros y []]. Qed.
(** C76: with two http blocks and any host the program does not start. *)
Theorem install_two_http_blocks : forall cl root s, (length (blocks root (str "http")) >= 2)%nat ->
  In (PHttp, s) (started root) -> own_hosts s ++ global_of root <> [] -> forall ls, install cl root <> Ok ls.
Proof.
  intros cl root s Hn Hs Hne ls H. apply install_list in H. destruct H as (_ & H).
  change (subs_of (str "http") root) with (blocks root (str "http")) in H.
  unfold reinstall in H. destruct (length (blocks root (str "http"))) as [|[|n]] eqn:El; try lia.
  destruct (forallb _ (http_servers root)) eqn:Ef; [|discriminate].
  assert (Hin : In (PHttp, mksv s (full_hosts root PHttp s)) (all_servers root)).
  { rewrite all_servers_started. apply in_map_iff. exists (PHttp, s). split; [reflexivity|exact Hs]. }
  unfold all_servers in Hin. apply in_app_or in Hin. destruct Hin as [Hin|Hin].
  2: { apply in_app_or in Hin. destruct Hin as [Hin|Hin]; apply in_map_iff in Hin; destruct Hin as (? & Hin & _); discriminate. }
  apply in_map_iff in Hin. destruct Hin as (x & E & Hin). injection E as ->.
  rewrite forallb_forall in Ef. specialize (Ef _ Hin). cbn [sv_hosts] in Ef. unfold full_hosts in Ef. rewrite El in Ef. cbn [repeat concat] in Ef.
  rewrite !zlen_app in Ef. pose proof (zlen_nonneg (own_hosts s)). pose proof (zlen_nonneg (global_of root)).
  pose proof (zlen_nonneg (concat (repeat (global_of root) n))).
  assert (Hz : zlen (own_hosts s) = 0 /\ zlen (global_of root) = 0) by lia. destruct Hz as (Hz1 & Hz2).
  apply Hne. destruct (own_hosts s) as [|y l1]; [|rewrite zlen_cons in Hz1; pose proof (zlen_nonneg l1); lia].
  destruct (global_of root) as [|y l2]; [reflexivity|rewrite zlen_cons in Hz2; pose proof (zlen_nonneg l2); lia].
Qed.
Print Assumptions install_two_http_blocks.
Example install_two_http_nonvacuous :
  install open_any (root_ [CMod (str "http") [] [] [server_ "80" [host_ "a"]]; CMod (str "http") [] [] [server_ "81" [host_ "b"]]]) = UB /\
  install open_any (root_ [CMod (str "globalhost") [] [] [host_ "g"]; CMod (str "http") [] [] [server_ "80" []]; CMod (str "http") [] [] []])
    = Err ERROR_CONFIG_PARSE_INVALID.
Proof. split; vm_compute; reflexivity. Qed.

(** ** What a host does *)
(** C77: a host of type "api" is proxied; the API handler is never reached. *)
Theorem host_api_unreachable : forall h, adapter h <> AApi /\
  (opt_str h (str "type") = str "api" -> adapter h = AProxy).
Proof.
  intros h. unfold adapter, is_streaming, is_api. split.
  - destruct (host_type (opt_str h (str "type"))); discriminate.
  - intros ->. reflexivity.
Qed.
Print Assumptions host_api_unreachable.
Example host_api_nonvacuous : adapter (CMod (str "host") (str "a") [(str "type", str "api")] []) = AProxy /\
  adapter (CMod (str "host") (str "a") [(str "type", str "stream")] []) = AStream.
Proof. split; reflexivity. Qed.
(** C78: "enabled off" changes nothing. *)
Theorem host_enabled_ignored : forall t n a v b subs port0 fmt,
  let h := CMod t n (a ++ (str "enabled", v) :: b) subs in let h' := CMod t n (a ++ b) subs in
  adapter h = adapter h' /\ proxy_info h port0 = proxy_info h' port0 /\ support_publish h fmt = support_publish h' fmt /\ is_edge h = is_edge h'.
Proof.
  intros t n a v b subs port0 fmt h h'.
  assert (E : forall k, k <> str "enabled" -> opt_str h k = opt_str h' k).
  { intros k Hk. unfold opt_str, opt_text, h, h'. cbn [cm_type cm_sets]. destruct (options_of t) as [os|]; [|reflexivity].
    destruct (find_opt os k) as [[kd d]|]; [|reflexivity]. rewrite !last_set_app. cbn [last_set fst snd].
    rewrite eqb_list_neq by congruence. reflexivity. }
  unfold adapter, is_streaming, is_api, proxy_info, support_publish, is_edge.
  rewrite !E by discriminate. repeat split.
Qed.
Print Assumptions host_enabled_ignored.
Example host_enabled_nonvacuous : opt_bool (CMod (str "host") (str "a") [(str "enabled", str "off")] []) (str "enabled") = false /\
  adapter (CMod (str "host") (str "a") [(str "enabled", str "off")] []) = AProxy.
Proof. split; reflexivity. Qed.
(** C79: where a proxied request goes: to the address written in the host's
    own pass_proxy, or in the last of its inner upstream blocks if it has
    any; the port defaults to the caller's. *)
Theorem host_proxy_target : forall h txt addr port port0,
  ((forall m, In m (cm_subs h) -> cm_type m <> str "upstream") /\ opt_str h (str "pass_proxy") = txt \/
   exists pre u post, cm_subs h = pre ++ u :: post /\ cm_type u = str "upstream" /\
     (forall m, In m post -> cm_type m <> str "upstream") /\ opt_str u (str "server") = txt) ->
  address txt addr port -> proxy_info h port0 = (addr, match port with Some p => p | None => port0 end).
Proof.
  intros h txt addr port port0 Ht Ha. unfold proxy_info.
  assert (E : match last_upstream (cm_subs h) None with Some u => opt_str u (str "server") | None => opt_str h (str "pass_proxy") end = txt).
  { destruct Ht as [(Hn & E)|(pre & u & post & Hs & Hu & Hn & E)].
    - rewrite last_upstream_none by exact Hn. exact E.
    - rewrite Hs, last_upstream_last by assumption. exact E. }
  rewrite E. destruct Ha as [a Hn|a ds n Hn Hne Hd Hv Hlt].
  - rewrite find_char_none by exact Hn. reflexivity.
  - rewrite find_char_first by exact Hn. rewrite take_app_exact by reflexivity. f_equal.
    replace (a ++ 58 :: ds) with ((a ++ [58]) ++ ds) by (rewrite <- app_assoc; reflexivity).
    rewrite drop_app_exact by (rewrite zlen_app; reflexivity).
    assert (Hdv : forall l acc, fold_left (fun acc c => 10 * acc + (c - 48)) l acc = dec_value l acc) by (induction l as [|x l IH]; intros acc; [reflexivity|apply IH]).
    rewrite Hdv in Hv. subst n.
    pose proof (conf_number ds Hne Hd Hlt) as Hc. exact Hc.
Qed.
Print Assumptions host_proxy_target.
Example host_proxy_nonvacuous :
  proxy_info (CMod (str "host") (str "www.github.com") [(str "pass_proxy", str "github")] []) 80 = (str "github", 80) /\
  proxy_info (CMod (str "host") (str "a") [(str "pass_proxy", str "b.com:8080")] []) 80 = (str "b.com", 8080) /\
  proxy_info (CMod (str "host") (str "a") [] [CMod (str "upstream") (str "u") [(str "server", str "1.2.3.4:81")] []]) 80 = (str "1.2.3.4", 81) /\
  proxy_info (CMod (str "host") (str "a") [] [CMod (str "upstream") (str "u") [(str "server", str "1.2.3.4:81")] [];
    CMod (str "upstream") (str "v") [(str "server", str "5.6.7.8")] []]) 80 = (str "5.6.7.8", 80).
Proof. repeat split; reflexivity. Qed.
