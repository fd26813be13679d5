(** Lemmas about starting the process and certificates. *)
From Verif Require Import Base M_Text M_Url S_Url L_Url M_Conf M_Host S_Host L_Host M_Serve S_Serve.

Lemma hp_refuses_empty_host : refuses_empty_host hp_url.
Proof.
  intros schema rest Hn Ha Hr. unfold hp_url. rewrite zlen_pos_ne by (destruct schema; [congruence|discriminate]).
  rewrite hp_run_app, run_schema; [|exact Ha|right; auto]. cbn [ua_s ua_h ua_p ua_q app].
  change (str "://") with [58; 47; 47].
  change (hp_run SSchema ?a ([58; 47; 47] ++ 47 :: rest)) with (hp_run SPath (hp_add a SPath 47) rest).
  rewrite run_path by exact Hr. cbn [hp_add ua_s ua_h ua_p ua_q app].
  rewrite (nonnil_some schema) by exact Hn. reflexivity.
Qed.

Lemma file_text first path : url_text (str "file") first None path None = str "file://" ++ first ++ match path with Some p => p | None => [] end.
Proof. unfold url_text. rewrite app_nil_r. reflexivity. Qed.

Lemma url_create_file lib first path : url_lib_ok lib -> url_wf (str "file") first None path None ->
  url_create lib (str "file://" ++ first ++ match path with Some p => p | None => [] end) = Ok (Some (str "file")).
Proof.
  intros Hlib Hwf. rewrite <- file_text. unfold url_create, url_from, parse_url.
  rewrite (lib_parts lib Hlib _ _ _ _ _ Hwf). cbn [up_schema up_host up_port up_path up_query opt_or rq_new rq_path rq_params rq_pp option_map].
  cbn [length query_loop find_char]. change (eqb_list (str "file") (str "file")) with true. cbn iota.
  destruct (zlen (url_text (str "file") first None path None) <? 8) eqn:E.
  - exfalso. apply Z.ltb_lt in E. rewrite file_text, !zlen_app in E. change (zlen (str "file://")) with 7 in E.
    destruct Hwf as [_ [Hh _] _ _ _]. destruct first as [|c first]; [congruence|]. rewrite zlen_cons in E.
    pose proof (zlen_nonneg first). pose proof (zlen_nonneg (match path with Some p => p | None => [] end)). lia.
  - reflexivity.
Qed.

(** ** The error codes of starting *)
Lemma scan_codes ts : forall c, scan ts = Err c -> c = ERROR_CONFIG_PARSE_INVALID.
Proof.
  induction ts as [|t ts IH]; intros c H; cbn [scan] in H; [discriminate|].
  destruct (end_flag t) as [k|].
  - destruct ts as [|t2 ts2]; [discriminate|]. destruct (is_hash t2); [discriminate|congruence].
  - destruct (scan ts) as [r|e| |]; cbn [bind] in H; try discriminate. injection H as <-. apply IH. reflexivity.
Qed.
Lemma parse_line_codes l c : parse_line l = Err c -> c = ERROR_CONFIG_PARSE_INVALID.
Proof.
  unfold parse_line. destruct (scan (words l)) as [[args k]|e| |] eqn:E; cbn [bind fst snd]; intros H; try discriminate.
  - destruct args as [|cmd more]; [discriminate|]. destruct (is_hash cmd); [discriminate|].
    destruct k as [k|]; [|congruence]. destruct more as [|m more].
    + destruct k; congruence.
    + destruct k; (destruct (eqb_list cmd [123] || eqb_list cmd [125]); [congruence|]); try discriminate.
      cbv zeta in H. destruct (eqb_list (last (m :: more) []) [59]); discriminate.
  - injection H as <-. exact (scan_codes _ _ E).
Qed.
Definition conf_code (c : Z) : Prop := c = ERROR_CONFIG_PARSE_INVALID \/ c = CONF_EXIT \/ c = ERROR_MODULE_TYPE_NOT_MATCH.
Lemma conf_body_codes fuel : forall ty name lines sets subs c, conf_body fuel ty name lines sets subs = Err c -> conf_code c.
Proof.
  induction fuel as [|f IH]; intros ty name lines sets subs c H; cbn [conf_body] in H; [discriminate|].
  destruct lines as [|l ls].
  - destruct (is_ty ty (str "root")); [discriminate|]. injection H as <-. left. reflexivity.
  - destruct (parse_line l) as [p|e| |] eqn:E; cbn [bind] in H; try discriminate.
    2:{ injection H as <-. left. exact (parse_line_codes _ _ E). }
    destruct p as [|cm a|cm a|].
    + exact (IH _ _ _ _ _ _ H).
    + destruct (options_of ty) as [os|]; [|injection H as <-; right; left; reflexivity].
      destruct (find_opt os cm) as [[k d]|]; [|exact (IH _ _ _ _ _ _ H)].
      destruct k; try (injection H as <-; left; reflexivity);
        (destruct a; cbn [opt_check bind] in H; try discriminate; exact (IH _ _ _ _ _ _ H)).
    + destruct (is_ty cm (str "location")); [discriminate|].
      destruct (options_of cm) as [os|]; [|injection H as <-; right; left; reflexivity].
      destruct (conf_body f cm a ls [] []) as [r|e| |] eqn:Eb; cbn [bind] in H; try discriminate.
      2:{ injection H as <-. exact (IH _ _ _ _ _ _ Eb). }
      destruct (post_sub ty (fst r)) as [u|e| |] eqn:Ep; cbn [bind] in H; try discriminate.
      * exact (IH _ _ _ _ _ _ H).
      * injection H as <-. unfold post_sub in Ep.
        destruct (is_ty ty (str "http") || is_ty ty (str "rtmp") || is_ty ty (str "srt")).
        { destruct (is_ty (cm_type (fst r)) (str "server")); [discriminate|]. injection Ep as <-. right; left; reflexivity. }
        destruct (is_ty ty (str "server") || is_ty ty (str "globalhost")).
        { destruct (is_ty (cm_type (fst r)) (str "host") && negb (zlen (cm_name (fst r)) =? 0)); [discriminate|]. injection Ep as <-. right; left; reflexivity. }
        destruct (is_ty ty (str "host")); [|discriminate].
        destruct (is_ty (cm_type (fst r)) (str "stream") || is_ty (cm_type (fst r)) (str "upstream")); [discriminate|].
        injection Ep as <-. right; right; reflexivity.
    + destruct (is_ty ty (str "root")); [|discriminate]. injection H as <-. left; reflexivity.
Qed.
Lemma load_conf_codes text c : load_conf text = Err c -> conf_code c.
Proof.
  unfold load_conf, init_conf. destruct (conf_body _ _ _ _ _ _) as [r|e| |] eqn:E; cbn [bind]; intros H; try discriminate.
  injection H as <-. exact (conf_body_codes _ _ _ _ _ _ _ E).
Qed.
Lemma register_all_codes hs : forall r c, register_all r hs = Err c -> c = ERROR_CONFIG_PARSE_INVALID.
Proof.
  induction hs as [|h hs IH]; intros r c H; cbn [register_all] in H; [discriminate|].
  destruct (register_host r h) as [r1|e| |] eqn:E; cbn [bind] in H; try discriminate; [exact (IH _ _ H)|].
  injection H as <-. unfold register_host in E.
  repeat match type of E with (if ?b then _ else _) = _ => destruct b
                         | match rt_default r with _ => _ end = _ => destruct (rt_default r)
                         | (let k := _ in _) = _ => cbv zeta in E end; congruence.
Qed.
Lemma inst_list_codes cl l : forall ls c, inst_list cl l ls = Err c -> c = ERROR_CONFIG_PARSE_INVALID \/ exists p, cl p = Err c.
Proof.
  induction l as [|[pr s] l IH]; intros ls c H; cbn [inst_list] in H; [discriminate|].
  destruct (install_server cl pr s ls) as [ls1|e| |] eqn:E; cbn [bind] in H; try discriminate; [exact (IH _ _ H)|].
  injection H as <-. unfold install_server in E. destruct (get_server (sv_port s) ls); [discriminate|].
  unfold get_router in E. destruct (register_all rt_new (sv_hosts s)) as [hr|e1| |] eqn:Er; cbn [bind] in E; try discriminate.
  - destruct (cl (sv_port s)) as [u|e1| |] eqn:Ec; cbn [bind] in E; try discriminate. injection E as <-. right. eauto.
  - injection E as <-. left. exact (register_all_codes _ _ _ Er).
Qed.
Lemma install_codes cl root c : install cl root = Err c -> c = ERROR_CONFIG_PARSE_INVALID \/ exists p, cl p = Err c.
Proof.
  unfold install.
  assert (K : forall pr ss ls c, install_servers cl pr ss ls = Err c -> c = ERROR_CONFIG_PARSE_INVALID \/ exists p, cl p = Err c).
  { intros pr ss ls c0 H. rewrite install_servers_list in H. exact (inst_list_codes _ _ _ _ H). }
  assert (R : forall n ss c, reinstall n ss <> Err c).
  { intros n ss c0. unfold reinstall. destruct n as [|[|n]]; try discriminate. destruct (forallb _ ss); discriminate. }
  destruct (match subs_of (str "http") root with [] => Ok [] | _ => install_servers cl PHttp (http_servers root) [] end) as [l1|e| |] eqn:E1; cbn [bind]; intros H; try discriminate.
  2:{ injection H as <-. destruct (subs_of (str "http") root); [discriminate|]. exact (K _ _ _ _ E1). }
  destruct (reinstall _ _) as [u|e| |] eqn:E2; cbn [bind] in H; try discriminate; [|exfalso; exact (R _ _ _ E2)].
  destruct (install_servers cl PRtmp _ l1) as [l2|e| |] eqn:E3; cbn [bind] in H; try discriminate.
  - exact (K _ _ _ _ H).
  - injection H as <-. exact (K _ _ _ _ E3).
Qed.

(** ** Certificates *)
Lemma transport_asks s : asks s (transport_of s).
Proof.
  unfold transport_of, asks. cbv zeta. destruct (eqb_list (opt_str s (str "transport")) (str "https")) eqn:E1.
  - apply eqb_list_spec in E1. exact E1.
  - destruct (eqb_list (opt_str s (str "transport")) (str "srt")) eqn:E2.
    + apply eqb_list_spec in E2. exact E2.
    + split; intro H; rewrite H in *; rewrite eqb_list_refl in *; discriminate.
Qed.
Lemma asks_transport s t : asks s t -> transport_of s = t.
Proof.
  unfold transport_of, asks. cbv zeta. destruct t; intros H.
  - destruct H as (H1 & H2). rewrite (eqb_list_neq _ _ H1), (eqb_list_neq _ _ H2). reflexivity.
  - rewrite H. reflexivity.
  - rewrite H. reflexivity.
Qed.
Lemma cert_search_ok r hs name c : rt_of r hs -> NoDup (map cm_name hs) ->
  (cert_search r name = Ok c <-> certificate_for hs name (sc_crt c) (sc_key c)).
Proof.
  intros Hr Hn. pose proof (find_host_serves r hs name Hr) as Hs. unfold cert_search, certificate_for. split.
  - intros H. destruct (find_host r name) as [h|]; [|discriminate].
    destruct ((zlen _ =? 0) || _) eqn:E in H; [discriminate|]. assert (Hc : c = mksc (opt_str h (str "ssl_crt_file")) (opt_str h (str "ssl_key_file"))) by congruence. clear H. subst c.
    cbn [sc_crt sc_key] in *. apply orb_false_iff in E. destruct E as (E1 & E2). exists h.
    split; [exact Hs|]. split; [reflexivity|]. split; [reflexivity|]. split; intro K; [rewrite K in E2|rewrite K in E1]; discriminate.
  - intros (h & Hh & Hc & Hk & N1 & N2). rewrite (serves_unique _ _ _ _ Hn Hs Hh). rewrite <- Hc, <- Hk.
    cbn [sc_crt sc_key]. rewrite !zlen_pos_ne by assumption. destruct c; reflexivity.
Qed.
Lemma ssl_verify_both L c : sc_crt c <> [] -> sc_key c <> [] ->
  shown L (snd (ssl_verify L c ld_none)) = (if cl_crt L (sc_crt c) && cl_key L (sc_key c) && cl_pair L (sc_crt c) (sc_key c) then Some (sc_crt c, sc_key c) else None)
  /\ (fst (ssl_verify L c ld_none) = Ok tt <-> usable L (sc_crt c) (sc_key c)).
Proof.
  intros N1 N2. unfold ssl_verify, usable. destruct (sc_crt c) as [|a crt] eqn:Ec; [congruence|]. destruct (sc_key c) as [|b key] eqn:Ek; [congruence|].
  destruct (cl_crt L (a :: crt)) eqn:H1; [|cbn; split; [reflexivity|split; [discriminate|intros (X & _); discriminate]]].
  destruct (cl_key L (b :: key)) eqn:H2; [|cbn; split; [reflexivity|split; [discriminate|intros (_ & X & _); discriminate]]].
  unfold shown, ld_check. cbn [fst snd ld_crt ld_key andb]. destruct (cl_pair L (a :: crt) (b :: key)); split; try reflexivity.
  - split; [auto|reflexivity].
  - split; [discriminate|intros (_ & _ & X); discriminate].
Qed.
