(** Lemmas for RTMP sessions. *)
From Verif Require Import Base M_Text M_Rtmp M_Url S_Url L_Url M_RtmpSess S_RtmpSess.

(** ** Decoding *)
Lemma amf_prop_some k o v : amf_prop k o = Some v <-> first_prop k v o.
Proof.
  induction o as [|[k' v'] o IH]; cbn [amf_prop].
  - split; [discriminate|]. intros H; inversion H.
  - destruct (eqb_list k' k) eqn:E.
    + apply eqb_list_spec in E. subst k'. split.
      * intros [= ->]. constructor.
      * intros H. inversion H; subst; [reflexivity|congruence].
    + assert (k' <> k) as N by (intros ->; rewrite eqb_list_refl in E; discriminate).
      rewrite IH. split; [intros H; constructor; assumption|]. intros H. inversion H; subst; [congruence|assumption].
Qed.
Lemma amf_string_some k o s : amf_string o k = Some s <-> first_prop k (AStr s) o.
Proof.
  unfold amf_string. rewrite <- amf_prop_some. destruct (amf_prop k o) as [[n|z|l| |]|]; split; try discriminate; congruence.
Qed.
Lemma cmd_base_some ps t o : cmd_base ps = Some (t, o) ->
  exists nm v more, ps = AStr nm :: ANum t :: v :: more /\ obj_or_null v /\ (forall x, o = Some x -> v = AObj x).
Proof.
  destruct ps as [|[?|nm|?| |] [|[?|?|?| |] [|[?|?|?| |] more]]]; cbn; try discriminate; intros [= -> <-].
  - exists nm, (AObj l), more. repeat split; [right; eauto|]. congruence.
  - exists nm, ANull, more. repeat split; [left; reflexivity|]. congruence.
Qed.
Lemma cmd_base_of nm t v more : obj_or_null v -> exists o, cmd_base (AStr nm :: ANum t :: v :: more) = Some (t, o).
Proof. intros [->|[o ->]]; cbn; eauto. Qed.
Lemma net_from_some ps t s : net_from ps = Some (t, s) ->
  exists nm v more, ps = AStr nm :: ANum t :: v :: AStr s :: more /\ obj_or_null v.
Proof.
  unfold net_from. destruct (cmd_base ps) as [[t' o]|] eqn:E; [|discriminate].
  apply cmd_base_some in E as (nm & v & more & -> & Hv & _). cbn [skipn].
  destruct more as [|[?|z|?| |] more]; try discriminate. intros [= <- <-]. eauto 6.
Qed.
Lemma net_from_of nm t v s more : obj_or_null v -> net_from (AStr nm :: ANum t :: v :: AStr s :: more) = Some (t, s).
Proof. intros H. unfold net_from. destruct (cmd_base_of nm t v (AStr s :: more) H) as [o ->]. reflexivity. Qed.

Ltac name_eq E := apply eqb_list_spec in E; subst.
Lemma convert_self_some ps c : convert_self ps = Ok (Some c) <-> spoken ps c.
Proof.
  split.
  - destruct ps as [|[?|name|?| |] ps]; cbn [convert_self]; try discriminate.
    set (vs := AStr name :: ps).
    destruct (eqb_list name (str "connect")) eqn:E1; [name_eq E1|
    destruct (eqb_list name (str "createStream")) eqn:E2; [name_eq E2|
    destruct (eqb_list name (str "play")) eqn:E3; [name_eq E3|
    destruct (eqb_list name (str "publish")) eqn:E4; [name_eq E4|
    destruct (eqb_list name (str "releaseStream")) eqn:E5; [name_eq E5|
    destruct (eqb_list name (str "FCPublish")) eqn:E6; [name_eq E6|discriminate]]]]]].
    + unfold conn_from. destruct (cmd_base vs) as [[t [o|]]|] eqn:E; try discriminate.
      destruct (amf_string o (str "app")) as [a|] eqn:Ea; [|discriminate].
      destruct (amf_string o (str "tcUrl")) as [u|] eqn:Eu; [|discriminate].
      cbn [bind]. intros [= <-]. apply cmd_base_some in E as (nm & v & more & Hps & _ & Hv).
      injection Hps as <- ->. specialize (Hv o eq_refl). subst vs v. constructor; apply amf_string_some; assumption.
    + unfold create_from. destruct (cmd_base vs) as [[t o]|] eqn:E; [|discriminate]. cbn [bind]. intros [= <-].
      apply cmd_base_some in E as (nm & v & more & Hps & Hv & _). injection Hps as <- ->. constructor. exact Hv.
    + unfold net_cmd. destruct (net_from vs) as [[t s]|] eqn:E; [|discriminate]. cbn [bind]. intros [= <-].
      apply net_from_some in E as (nm & v & more & Hps & Hv). injection Hps as <- ->. constructor. exact Hv.
    + unfold publish_from. destruct (net_from vs) as [[t s]|] eqn:E; [|discriminate].
      apply net_from_some in E as (nm & v & more & Hps & Hv). injection Hps as <- ->. subst vs.
      destruct (5 <? zlen _) eqn:E5'.
      * cbn [skipn]. destruct more as [|[?|ty|?| |] more]; try discriminate. cbn [bind]. intros [= <-].
        constructor; [exact Hv|]. right. right. eauto.
      * cbn [bind]. intros [= <-]. constructor; [exact Hv|].
        apply Z.ltb_ge in E5'. rewrite !zlen_cons in E5'. destruct more as [|x [|y more]]; [left; reflexivity|right; left; eauto|].
        rewrite !zlen_cons in E5'. pose proof (zlen_nonneg more). lia.
    + unfold net_cmd. destruct (net_from vs) as [[t s]|] eqn:E; [|discriminate]. cbn [bind]. intros [= <-].
      apply net_from_some in E as (nm & v & more & Hps & Hv). injection Hps as <- ->. constructor. exact Hv.
    + unfold net_cmd. destruct (net_from vs) as [[t s]|] eqn:E; [|discriminate]. cbn [bind]. intros [= <-].
      apply net_from_some in E as (nm & v & more & Hps & Hv). injection Hps as <- ->. constructor. exact Hv.
  - intros H. destruct H as [t o app tc more Ha Hu|t v more Hv|t v name more Hv|t v name more Hv Hm|t v name more Hv|t v name more Hv].
    + change (convert_self _) with (let? c := conn_from (AStr (str "connect") :: ANum t :: AObj o :: more) in Ok (Some c)).
      unfold conn_from. cbn [cmd_base]. apply amf_string_some in Ha, Hu. rewrite Ha, Hu. reflexivity.
    + change (convert_self _) with (let? c := create_from (AStr (str "createStream") :: ANum t :: v :: more) in Ok (Some c)).
      unfold create_from. destruct (cmd_base_of (str "createStream") t v more Hv) as [o ->]. reflexivity.
    + change (convert_self _) with (let? c := net_cmd CPlay (AStr (str "play") :: ANum t :: v :: AStr name :: more) in Ok (Some c)).
      unfold net_cmd. rewrite net_from_of by exact Hv. reflexivity.
    + change (convert_self _) with (let? c := publish_from (AStr (str "publish") :: ANum t :: v :: AStr name :: more) in Ok (Some c)).
      unfold publish_from. rewrite net_from_of by exact Hv. cbn [skipn].
      destruct Hm as [->|[[x ->]|(ty & more' & ->)]]; [reflexivity|reflexivity|]. destruct (5 <? _); reflexivity.
    + change (convert_self _) with (let? c := net_cmd CRelease (AStr (str "releaseStream") :: ANum t :: v :: AStr name :: more) in Ok (Some c)).
      unfold net_cmd. rewrite net_from_of by exact Hv. reflexivity.
    + change (convert_self _) with (let? c := net_cmd CFCPublish (AStr (str "FCPublish") :: ANum t :: v :: AStr name :: more) in Ok (Some c)).
      unfold net_cmd. rewrite net_from_of by exact Hv. reflexivity.
Qed.
Lemma is_command_spec t : is_command t = true <-> amf_type t.
Proof. unfold is_command, amf_type, RT_AMF0_DATA, RT_AMF0_CMD, RT_AMF3_DATA, RT_AMF3_CMD. lia. Qed.
Lemma ev_decode_some lib ev c : ev_decode lib ev = Ok (Some c) <-> speaks lib ev c.
Proof.
  unfold speaks. destruct ev as [m n|e t size]; cbn [ev_decode]; unfold rt_decode.
  - split.
    + destruct (rm_type m =? RT_CHUNK_SIZE) eqn:E1; [discriminate|].
      destruct (is_command (rm_type m)) eqn:E2; [|discriminate].
      destruct (lib _ _) as [ps|] eqn:El; [|discriminate]. intros H. apply convert_self_some in H.
      exists m, n, ps. split; [reflexivity|]. split; [apply is_command_spec; exact E2|]. split; [exact El|exact H].
    + intros (m' & n' & vs & [= <- <-] & Ht & Hl & Hs). apply is_command_spec in Ht.
      replace (rm_type m =? RT_CHUNK_SIZE) with false by (unfold is_command, RT_CHUNK_SIZE, RT_AMF0_DATA, RT_AMF0_CMD, RT_AMF3_DATA, RT_AMF3_CMD in *; lia).
      rewrite Ht. change RT_AMF3_CMD with 17. rewrite Hl. apply convert_self_some. exact Hs.
  - split; [|intros (m & n & vs & [=] & _)].
    destruct (t =? RT_CHUNK_SIZE); [destruct (4 <=? size); discriminate|].
    destruct (is_command t); [destruct (size =? 0); discriminate|discriminate].
Qed.
Lemma convert_self_codes nm vs :
  (unknown_name nm -> convert_self (AStr nm :: vs) = Ok None) /\
  (~ unknown_name nm -> (forall c, ~ spoken (AStr nm :: vs) c) ->
     convert_self (AStr nm :: vs) = Err ERROR_RTMP_AMF_CMD_CONVERT \/
     (nm = str "connect" /\ convert_self (AStr nm :: vs) = UB /\ exists t more, vs = ANum t :: ANull :: more)).
Proof.
  split.
  - intros Hu. unfold unknown_name in Hu. cbn [In] in Hu. cbn [convert_self].
    repeat match goal with |- (if eqb_list nm ?x then _ else _) = _ =>
      let E := fresh in destruct (eqb_list nm x) eqn:E; [apply eqb_list_spec in E; subst nm; tauto|clear E] end.
    reflexivity.
  - intros Hk Hs. destruct (convert_self (AStr nm :: vs)) as [[c|]|e| |] eqn:E.
    + apply convert_self_some in E. destruct (Hs _ E).
    + exfalso. apply Hk. intros Hin. cbn [In] in Hin. cbn [convert_self] in E.
      destruct Hin as [<-|[<-|[<-|[<-|[<-|[<-|[]]]]]]].
      * cbn -[conn_from] in E. destruct (conn_from _); discriminate.
      * cbn -[create_from] in E. destruct (create_from _); discriminate.
      * cbn -[net_cmd] in E. destruct (net_cmd _ _); discriminate.
      * cbn -[publish_from] in E. destruct (publish_from _); discriminate.
      * cbn -[net_cmd] in E. destruct (net_cmd _ _); discriminate.
      * cbn -[net_cmd] in E. destruct (net_cmd _ _); discriminate.
    + left. cbn [convert_self] in E.
      repeat match type of E with (if ?b then _ else _) = _ => destruct b end; try discriminate E;
        unfold conn_from, create_from, net_cmd, publish_from in E;
        repeat match type of E with
        | context [match ?x with _ => _ end] => destruct x; try discriminate E
        end; cbn [bind] in E; congruence.
    + right. cbn [convert_self] in E.
      destruct (eqb_list nm (str "connect")) eqn:E1.
      * apply eqb_list_spec in E1. subst nm. split; [reflexivity|]. split; [reflexivity|].
        unfold conn_from in E. destruct (cmd_base _) as [[t [o|]]|] eqn:Eb.
        { destruct (amf_string _ _); [|discriminate E]. destruct (amf_string _ _); discriminate E. }
        { cbn [cmd_base] in Eb. destruct vs as [|[t'|?|?| |] [|[?|?|?| |] more]]; try discriminate Eb. eauto. }
        { discriminate E. }
      * exfalso. repeat match type of E with (if ?b then _ else _) = _ => destruct b end; try discriminate E;
        unfold create_from, net_cmd, publish_from in E;
        repeat match type of E with
        | context [match ?x with _ => _ end] => destruct x; try discriminate E
        end.
    + exfalso. cbn [convert_self] in E.
      repeat match type of E with (if ?b then _ else _) = _ => destruct b end; try discriminate E;
        unfold conn_from, create_from, net_cmd, publish_from in E;
        repeat match type of E with
        | context [match ?x with _ => _ end] => destruct x; try discriminate E
        end.
Qed.
Lemma no_command lib m n : let r := ev_decode lib (RvMsg m n) in
  (~ amf_type (rm_type m) -> r = Ok None) /\
  (amf_type (rm_type m) ->
    (lib (rm_type m =? 17) (rm_body m) = None -> r = Err ERROR_RTMP_AMF_DECODE) /\
    (lib (rm_type m =? 17) (rm_body m) = Some [] -> r = Err ERROR_RTMP_AMF_CMD_CONVERT) /\
    (forall v vs, lib (rm_type m =? 17) (rm_body m) = Some (v :: vs) ->
      ((forall nm, v <> AStr nm) -> r = Err ERROR_RTMP_AMF_PROP_TYPE) /\
      (forall nm, v = AStr nm -> (unknown_name nm -> r = Ok None) /\
        (~ unknown_name nm -> (forall c, ~ spoken (v :: vs) c) ->
           r = Err ERROR_RTMP_AMF_CMD_CONVERT \/
           (nm = str "connect" /\ r = UB /\ exists t more, vs = ANum t :: ANull :: more))))).
Proof.
  cbv zeta. cbn [ev_decode]. unfold rt_decode. split.
  - intros Hn. destruct (rm_type m =? RT_CHUNK_SIZE); [reflexivity|].
    destruct (is_command (rm_type m)) eqn:E2; [apply is_command_spec in E2; contradiction|reflexivity].
  - intros Ht. apply is_command_spec in Ht.
    replace (rm_type m =? RT_CHUNK_SIZE) with false by (unfold is_command, RT_CHUNK_SIZE, RT_AMF0_DATA, RT_AMF0_CMD, RT_AMF3_DATA, RT_AMF3_CMD in *; lia).
    rewrite Ht. change RT_AMF3_CMD with 17. split; [intros ->; reflexivity|]. split; [intros ->; reflexivity|].
    intros v vs ->. split.
    + intros Hv. destruct v as [?|nm|?| |]; try reflexivity. destruct (Hv nm eq_refl).
    + intros nm ->. apply convert_self_codes.
Qed.
Lemma speaks_fun lib ev c c' : speaks lib ev c -> speaks lib ev c' -> c = c'.
Proof. intros H H'. apply ev_decode_some in H, H'. congruence. Qed.

(** ** Sending and receiving *)
Definition grew (s s1 : sess) : Prop :=
  (exists x, se_out s1 = se_out s ++ x /\ filter about_commands x = []) /\
  (exists y, se_sends s = y ++ se_sends s1).
Lemma lib_send_cases s r : (exists c l, se_sends s = SFail c :: l /\ lib_send s r = (SFail c, mkse (se_h s) l (se_out s))) \/
  (lib_send s r = (SOk, mkse (se_h s) (tl (se_sends s)) (se_out s ++ [r])) /\ exists y, se_sends s = y ++ tl (se_sends s)).
Proof.
  unfold lib_send. destruct (se_sends s) as [|[|c] l] eqn:E; [right|right|left; eauto].
  - split; [reflexivity|]. exists []. reflexivity.
  - split; [reflexivity|]. exists [SOk]. reflexivity.
Qed.
Lemma grew_refl s : grew s s.
Proof. split; [exists []; rewrite app_nil_r; auto|exists []; reflexivity]. Qed.
Lemma hk_ack_grew s r s1 : hk_ack s = (r, s1) -> grew s s1.
Proof.
  unfold hk_ack. destruct (hk_bytes (se_h s) <? hk_next (se_h s)); [intros [= <- <-]; apply grew_refl|].
  destruct (_ || _); [intros [= <- <-]; apply grew_refl|].
  intros [= <- <-]. unfold send_packet. set (s0 := mkse _ _ _). destruct (lib_send_cases s0 (RAck (hk_bytes (se_h s)))) as [(c & l & Hs & ->)|(-> & y & Hy)].
  - split; [exists []; rewrite app_nil_r; auto|exists [SFail c]; exact Hs].
  - split; [exists [RAck (hk_bytes (se_h s))]; auto|exists y; exact Hy].
Qed.
Lemma hk_recv_grew s ev r s1 : hk_recv s ev = (r, s1) -> grew s s1.
Proof.
  destruct ev as [m n|c t sz]; cbn [hk_recv]; [|intros [= <- <-]; apply grew_refl].
  destruct (hk_count (se_h s) n) as [h|e| |]; try (intros [= <- <-]; apply grew_refl).
  unfold on_recv. cbn [se_h se_sends se_out].
  assert (forall h' r, match hk_ack (mkse h' (se_sends s) (se_out s)) with
    | (Ok _, s1) => (Ok 0, s1) | (Err c, s1) => (Err c, s1) | (UB, s1) => (UB, s1) | (Fuel, s1) => (Fuel, s1) end = (r, s1) -> grew s s1) as Hgo.
  { intros h' r0 H. destruct (hk_ack (mkse h' (se_sends s) (se_out s))) as [x s2] eqn:Ea.
    assert (s2 = s1) as -> by (destruct x; congruence).
    apply hk_ack_grew in Ea. exact Ea. }
  assert (grew s (mkse h (se_sends s) (se_out s))) as Hid by (split; [exists []; rewrite app_nil_r; auto|exists []; reflexivity]).
  destruct (rm_type m =? RT_CHUNK_SIZE); [destruct (4 <=? zlen (rm_body m)); apply Hgo|].
  destruct (rm_type m =? RT_CONTROL).
  { destruct (_ && _); [|apply Hgo].
    unfold send_pong. set (s0 := mkse _ _ _). destruct (lib_send_cases s0 (RPong 0)) as [(c & l & Hs & ->)|(-> & y & Hy)]; intros [= <- <-].
    - split; [exists []; rewrite app_nil_r; auto|exists [SFail c]; exact Hs].
    - split; [exists [RPong 0]; auto|exists y; exact Hy]. }
  destruct (rm_type m =? RT_SERVER_BW); [destruct (zlen (rm_body m) <? 4); [intros [= <- <-]; exact Hid|apply Hgo]|].
  destruct (rm_type m =? RT_CLIENT_BW); [destruct (zlen (rm_body m) <? 4); [intros [= <- <-]; exact Hid|apply Hgo]|].
  apply Hgo.
Qed.
(** A send that reported success really sent, unless the library failed without
    a socket error. *)
Definition honest (s : sess) : Prop := Forall (fun r => r <> SFail 0) (se_sends s).
Lemma grew_honest s s1 : grew s s1 -> honest s -> honest s1.
Proof. intros (_ & y & Hy) H. unfold honest in *. rewrite Hy in H. apply Forall_app in H. tauto. Qed.
Lemma send_packet_0 s r s1 : send_packet s r = (0, s1) -> honest s -> se_out s1 = se_out s ++ [r] /\ honest s1.
Proof.
  intros H Hh. unfold send_packet in H. destruct (lib_send_cases s r) as [(c & l & Hs & Hl)|(Hl & y & Hy)]; rewrite Hl in H.
  - unfold honest in Hh. injection H as Hc H1. rewrite Hs in Hh. apply Forall_inv in Hh. subst. congruence.
  - injection H as <-. split; [reflexivity|]. unfold honest in *. cbn [se_sends]. rewrite Hy in Hh. apply Forall_app in Hh. tauto.
Qed.
Lemma send_bw_0 s r s1 : send_bw s r = (0, s1) -> honest s -> se_out s1 = se_out s ++ [r] /\ honest s1.
Proof.
  intros H Hh. unfold send_bw in H. destruct (lib_send_cases s r) as [(c & l & Hs & Hl)|(Hl & y & Hy)]; rewrite Hl in H.
  - injection H as Hc H1. destruct (c =? 0) eqn:E; [discriminate|lia].
  - injection H as <-. split; [reflexivity|]. unfold honest in *. cbn [se_sends]. rewrite Hy in Hh. apply Forall_app in Hh. tauto.
Qed.
Lemma send_list_0 l : Forall (fun fr => fst fr = send_packet \/ fst fr = send_bw) l ->
  forall s s1, send_list s l = (0, s1) -> honest s -> se_out s1 = se_out s ++ map snd l /\ honest s1.
Proof.
  induction l as [|[f r] l IH]; intros Hl s s1 H Hh.
  - injection H as <-. cbn. rewrite app_nil_r. auto.
  - cbn [send_list] in H. destruct (f s r) as [c s2] eqn:Ef. destruct (c =? 0) eqn:E; [|injection H as Hc _; lia].
    apply Z.eqb_eq in E. subst c. assert (se_out s2 = se_out s ++ [r] /\ honest s2) as (Ho & Hh2).
    { destruct (Forall_inv Hl) as [Hf|Hf]; cbn [fst] in Hf; subst f; [apply send_packet_0|apply send_bw_0]; assumption. }
    destruct (IH (Forall_inv_tail Hl) s2 s1 H Hh2) as (Ho1 & Hh1). split; [|exact Hh1].
    rewrite Ho1, Ho, <- app_assoc. reflexivity.
Qed.
Lemma grew_filter s s1 : grew s s1 -> filter about_commands (se_out s1) = filter about_commands (se_out s).
Proof. intros ((x & Hx & Hf) & _). rewrite Hx, filter_app, Hf, app_nil_r. reflexivity. Qed.

(** ** The connect phase: what a success means *)
Definition role_answer (c : cmd) : list reply :=
  match c with
  | CPlay _ _ => [RPlayStart; RSampleAccess; RStreamBegin 1]
  | CPublish t _ => match nm_int t with Some z => [RPublishStart z; RStreamBegin 1] | None => [] end
  | _ => []
  end.
Definition role_of (c : cmd) (pl pb : bool) (name : list Z) : Prop :=
  (exists t, c = CPlay t name /\ pl = true /\ pb = false) \/ (exists t, c = CPublish t name /\ pl = false /\ pb = true).
Lemma ph2_sound lib tc evs : forall s pl pb tc' params s',
  ph2 lib s tc evs = (CRet 0 pl pb tc' params, s') ->
  exists mid last rest cs c name,
    evs = mid ++ last :: rest /\ commands lib mid cs /\ Forall (fun c => ~ starts_role c) cs /\
    speaks lib last c /\ role_of c pl pb name /\ tc' = tc /\ params = str "/" ++ name /\
    (honest s -> filter about_commands (se_out s') = filter about_commands (se_out s) ++ flat_map answer cs ++ role_answer c).
Proof.
  induction evs as [|ev evs IH]; intros s pl pb tc' params s' H; [discriminate|].
  cbn [ph2] in H. destruct (hk_recv s ev) as [r s1] eqn:Er. pose proof (hk_recv_grew _ _ _ _ Er) as Hg.
  destruct r as [c|e| |]; try discriminate.
  destruct (c =? 0) eqn:Ec; cbn [negb] in H; [|injection H as -> _ _ _ _; lia].
  assert (forall s2 ans, (honest s1 -> se_out s2 = se_out s1 ++ ans /\ honest s2) -> ph2 lib s2 tc evs = (CRet 0 pl pb tc' params, s') ->
    (forall ocs, (ocs = [] /\ (forall c, ~ speaks lib ev c) /\ ans = [] \/ exists c, ocs = [c] /\ speaks lib ev c /\ ans = answer c /\ filter about_commands ans = ans /\ ~ starts_role c) ->
    exists mid last rest cs c name,
    ev :: evs = mid ++ last :: rest /\ commands lib mid cs /\ Forall (fun c => ~ starts_role c) cs /\
    speaks lib last c /\ role_of c pl pb name /\ tc' = tc /\ params = str "/" ++ name /\
    (honest s -> filter about_commands (se_out s') = filter about_commands (se_out s) ++ flat_map answer cs ++ role_answer c))) as Hrec.
  { intros s2 ans Hs2 H2 ocs Hocs. destruct (IH s2 _ _ _ _ _ H2) as (mid & last & rest & cs & c0 & name & -> & Hc & Hf & Hl & Hr & Ht & Hp & Ho).
    exists (ev :: mid), last, rest, (ocs ++ cs), c0, name.
    split; [reflexivity|]. split; [destruct Hocs as [(-> & Hn & _)|(c1 & -> & Hs & _)]; [apply cs_other; assumption|apply cs_cmd; assumption]|].
    split; [apply Forall_app; split; [|exact Hf]; destruct Hocs as [(-> & _)|(c1 & -> & _ & _ & _ & Hn)]; [constructor|constructor; [exact Hn|constructor]]|].
    split; [exact Hl|]. split; [exact Hr|]. split; [exact Ht|]. split; [exact Hp|].
    intros Hh. pose proof (grew_honest _ _ Hg Hh) as Hh1. destruct (Hs2 Hh1) as (Ho2 & Hh2).
    rewrite (Ho Hh2), Ho2, filter_app, (grew_filter _ _ Hg), <- app_assoc. f_equal. rewrite flat_map_app, <- app_assoc. f_equal.
    destruct Hocs as [(-> & _ & ->)|(c1 & -> & _ & -> & Hfa & _)]; [reflexivity|]. cbn [flat_map]. rewrite app_nil_r. exact Hfa. }
  assert (forall c0, ev_decode lib ev = Ok (Some c0) -> speaks lib ev c0) as Hsp by (intros; apply ev_decode_some; assumption).
  destruct (ev_decode lib ev) as [[c0|]|e| |] eqn:Ed; try discriminate.
  - specialize (Hsp c0 eq_refl). destruct c0 as [t ap tc0|t|t name|t name|t name|t name].
    + apply (Hrec s1 [] ltac:(rewrite app_nil_r; auto) H [CConnect t ap tc0]). right. exists (CConnect t ap tc0).
      split; [reflexivity|]. split; [exact Hsp|]. split; [reflexivity|]. split; [reflexivity|]. intros [].
    + destruct (send_packet s1 (RResult t 1)) as [c2 s2] eqn:Es. destruct (c2 =? 0) eqn:E2; [|injection H as -> _ _ _ _; lia].
      apply Z.eqb_eq in E2. subst c2. apply (Hrec s2 [RResult t 1] (send_packet_0 _ _ _ Es) H [CCreate t]). right. eexists.
      split; [reflexivity|]. split; [exact Hsp|]. split; [reflexivity|]. split; [reflexivity|]. intros [].
    + destruct (nm_int t) eqn:Et; [|discriminate].
      destruct (send_list s1 _) as [c2 s2] eqn:Es. injection H as -> <- <- <- <- <-. cbn [Z.eqb] in *.
      exists [], ev, evs, [], (CPlay t name), name.
      split; [reflexivity|]. split; [constructor|]. split; [constructor|]. split; [exact Hsp|].
      split; [left; exists t; auto|]. split; [reflexivity|]. split; [reflexivity|]. intros Hh.
      apply send_list_0 in Es; [|repeat constructor|eapply grew_honest; eassumption].
      rewrite (proj1 Es), filter_app, (grew_filter _ _ Hg). reflexivity.
    + destruct (nm_int t) as [z|] eqn:Et; [|discriminate].
      destruct (send_list s1 _) as [c2 s2] eqn:Es. injection H as -> <- <- <- <- <-. cbn [Z.eqb] in *.
      exists [], ev, evs, [], (CPublish t name), name.
      split; [reflexivity|]. split; [constructor|]. split; [constructor|]. split; [exact Hsp|].
      split; [right; exists t; auto|]. split; [reflexivity|]. split; [reflexivity|]. intros Hh.
      apply send_list_0 in Es; [|repeat constructor|eapply grew_honest; eassumption].
      rewrite (proj1 Es), filter_app, (grew_filter _ _ Hg). cbn [role_answer flat_map]. rewrite Et. reflexivity.
    + destruct (send_packet s1 (RResult t 0)) as [c2 s2] eqn:Es. destruct (c2 =? 0) eqn:E2; [|injection H as -> _ _ _ _; lia].
      apply Z.eqb_eq in E2. subst c2. apply (Hrec s2 [RResult t 0] (send_packet_0 _ _ _ Es) H [CRelease t name]). right. eexists.
      split; [reflexivity|]. split; [exact Hsp|]. split; [reflexivity|]. split; [reflexivity|]. intros [].
    + destruct (send_packet s1 (RResult t 0)) as [c2 s2] eqn:Es. destruct (c2 =? 0) eqn:E2; [|injection H as -> _ _ _ _; lia].
      apply Z.eqb_eq in E2. subst c2. apply (Hrec s2 [RResult t 0] (send_packet_0 _ _ _ Es) H [CFCPublish t name]). right. eexists.
      split; [reflexivity|]. split; [exact Hsp|]. split; [reflexivity|]. split; [reflexivity|]. intros [].
  - apply (Hrec s1 [] ltac:(rewrite app_nil_r; auto) H []). left. split; [reflexivity|]. split; [|reflexivity].
    intros c0 Hc0. apply ev_decode_some in Hc0. congruence.
  - injection H as -> _ _ _ _ _. clear - Ed. exfalso.
    destruct ev as [m n|e t sz]; cbn [ev_decode] in Ed; unfold rt_decode in Ed.
    + destruct (rm_type m =? RT_CHUNK_SIZE); [discriminate|]. destruct (is_command (rm_type m)); [|discriminate].
      destruct (lib _ _) as [ps|]; [|discriminate]. destruct ps as [|[?|nm|?| |] ps]; cbn [convert_self] in Ed; try discriminate.
      unfold conn_from, create_from, net_cmd, publish_from in Ed.
      repeat match type of Ed with context [if ?b then _ else _] => destruct b end;
      repeat match type of Ed with context [match ?b with _ => _ end] => destruct b; cbn [bind] in Ed end; discriminate.
    + destruct (t =? RT_CHUNK_SIZE); [destruct (4 <=? sz); discriminate|]. destruct (is_command t); [|discriminate].
      destruct (sz =? 0); discriminate.
Qed.
Lemma ev_decode_err lib ev e : ev_decode lib ev = Err e -> e <> 0.
Proof.
  intros Ed ->. destruct ev as [m n|e t sz]; cbn [ev_decode] in Ed; unfold rt_decode in Ed.
  - destruct (rm_type m =? RT_CHUNK_SIZE); [discriminate|]. destruct (is_command (rm_type m)); [|discriminate].
    destruct (lib _ _) as [ps|]; [|discriminate]. destruct ps as [|[?|nm|?| |] ps]; cbn [convert_self] in Ed; try discriminate.
    unfold conn_from, create_from, net_cmd, publish_from in Ed.
    repeat match type of Ed with context [if ?b then _ else _] => destruct b end;
    repeat match type of Ed with context [match ?b with _ => _ end] => destruct b; cbn [bind] in Ed end; discriminate.
  - destruct (t =? RT_CHUNK_SIZE); [destruct (4 <=? sz); discriminate|]. destruct (is_command t); [|discriminate].
    destruct (sz =? 0); discriminate.
Qed.

(** Fields of the session object after a reception. *)
Lemma lib_send_h s r x s1 : lib_send s r = (x, s1) -> se_h s1 = se_h s.
Proof. unfold lib_send. destruct (se_sends s) as [|[|c] l]; intros [= <- <-]; reflexivity. Qed.
Lemma hk_ack_fields s r s1 : hk_ack s = (r, s1) ->
  hk_in (se_h s1) = hk_in (se_h s) /\ hk_sbw (se_h s1) = hk_sbw (se_h s) /\ hk_cbw (se_h s1) = hk_cbw (se_h s) /\ hk_bytes (se_h s1) = hk_bytes (se_h s) /\ hk_outc (se_h s1) = hk_outc (se_h s).
Proof.
  unfold hk_ack. destruct (_ <? _); [intros [= <- <-]; auto 6|]. destruct (_ || _); [intros [= <- <-]; auto 6|].
  intros [= <- <-]. unfold send_packet. destruct (lib_send _ _) as [[|c] s2] eqn:E; apply lib_send_h in E; cbn [snd se_h on_send]; rewrite E; cbn; auto 6.
Qed.
Lemma hk_recv_fields s ev c s1 : hk_recv s ev = (Ok c, s1) ->
  hk_in (se_h s1) = announced 1 (hk_in (se_h s)) [ev] /\
  hk_sbw (se_h s1) = announced 5 (hk_sbw (se_h s)) [ev] /\
  hk_cbw (se_h s1) = announced 6 (hk_cbw (se_h s)) [ev] /\
  hk_bytes (se_h s1) = hk_bytes (se_h s) + wire [ev].
Proof.
  destruct ev as [m n|e t sz]; cbn [hk_recv announced wire]; [|intros [= <- <-]; repeat split; lia].
  unfold hk_count. destruct (2 ^ 31 <=? _); [discriminate|]. unfold on_recv. cbn [se_h se_sends se_out].
  set (h := mkhk _ _ _ _ _ _).
  assert (forall h', match hk_ack (mkse h' (se_sends s) (se_out s)) with
    | (Ok _, s1) => (Ok 0, s1) | (Err c, s1) => (Err c, s1) | (UB, s1) => (UB, s1) | (Fuel, s1) => (Fuel, s1) end = (Ok c, s1) ->
    hk_in (se_h s1) = hk_in h' /\ hk_sbw (se_h s1) = hk_sbw h' /\ hk_cbw (se_h s1) = hk_cbw h' /\ hk_bytes (se_h s1) = hk_bytes h') as Hgo.
  { intros h' H. destruct (hk_ack (mkse h' (se_sends s) (se_out s))) as [x s2] eqn:Ea.
    assert (s2 = s1) as -> by (destruct x; congruence). apply hk_ack_fields in Ea. cbn [se_h] in Ea. tauto. }
  unfold RT_CHUNK_SIZE, RT_CONTROL, RT_SERVER_BW, RT_CLIENT_BW.
  destruct (rm_type m =? 1) eqn:E1.
  { replace (rm_type m =? 5) with false by lia. replace (rm_type m =? 6) with false by lia.
    destruct (4 <=? zlen (rm_body m)); intros H; apply Hgo in H; cbn in *; rewrite Z.add_0_r; exact H. }
  destruct (rm_type m =? 4) eqn:E4.
  { replace (rm_type m =? 5) with false by lia. replace (rm_type m =? 6) with false by lia.
    destruct (_ && _) eqn:Eb; [|intros H; apply Hgo in H; cbn in *; rewrite Z.add_0_r; exact H].
    unfold send_pong. destruct (lib_send _ _) as [[|c'] s2] eqn:El; apply lib_send_h in El; cbn [se_h] in El; intros [= <- <-]; rewrite El; cbn; rewrite Z.add_0_r; auto. }
  destruct (rm_type m =? 5) eqn:E5.
  { replace (rm_type m =? 6) with false by lia.
    destruct (zlen (rm_body m) <? 4) eqn:El; [discriminate|]. replace (4 <=? zlen (rm_body m)) with true by lia.
    intros H; apply Hgo in H; cbn in *; rewrite Z.add_0_r; exact H. }
  destruct (rm_type m =? 6) eqn:E6.
  { destruct (zlen (rm_body m) <? 4) eqn:El; [discriminate|]. replace (4 <=? zlen (rm_body m)) with true by lia.
    intros H; apply Hgo in H; cbn in *; rewrite Z.add_0_r; exact H. }
  intros H; apply Hgo in H; cbn in *; rewrite Z.add_0_r; exact H.
Qed.
Lemma announced_app ty a : forall d b, announced ty d (a ++ b) = announced ty (announced ty d a) b.
Proof.
  induction a as [|[m n|e t sz] a IH]; intros d b; cbn [announced app]; [reflexivity| |apply IH].
  destruct (_ && _); apply IH.
Qed.
Lemma send_packet_fields s r c s1 : send_packet s r = (c, s1) ->
  hk_in (se_h s1) = hk_in (se_h s) /\ hk_sbw (se_h s1) = hk_sbw (se_h s) /\ hk_cbw (se_h s1) = hk_cbw (se_h s) /\ hk_bytes (se_h s1) = hk_bytes (se_h s) /\ hk_next (se_h s1) = hk_next (se_h s).
Proof.
  unfold send_packet. destruct (lib_send s r) as [[|e] s2] eqn:E; apply lib_send_h in E; intros [= <- <-]; cbn [se_h]; rewrite E; [destruct r|]; cbn; auto 6.
Qed.
Lemma send_bw_fields s r c s1 : send_bw s r = (c, s1) -> se_h s1 = se_h s.
Proof. unfold send_bw. destruct (lib_send s r) as [[|e] s2] eqn:E; apply lib_send_h in E; intros [= <- <-]; exact E. Qed.
Lemma send_list_fields l : Forall (fun fr => fst fr = send_packet \/ fst fr = send_bw) l -> forall s c s1, send_list s l = (c, s1) ->
  hk_in (se_h s1) = hk_in (se_h s) /\ hk_sbw (se_h s1) = hk_sbw (se_h s) /\ hk_cbw (se_h s1) = hk_cbw (se_h s) /\ hk_bytes (se_h s1) = hk_bytes (se_h s) /\ hk_next (se_h s1) = hk_next (se_h s).
Proof.
  induction l as [|[f r] l IH]; intros Hl s c s1 H; cbn [send_list] in H; [injection H as <- <-; auto 6|].
  destruct (f s r) as [c2 s2] eqn:Ef.
  assert (hk_in (se_h s2) = hk_in (se_h s) /\ hk_sbw (se_h s2) = hk_sbw (se_h s) /\ hk_cbw (se_h s2) = hk_cbw (se_h s) /\ hk_bytes (se_h s2) = hk_bytes (se_h s) /\ hk_next (se_h s2) = hk_next (se_h s)) as (A & B & C & D & G).
  { destruct (Forall_inv Hl) as [Hf|Hf]; cbn [fst] in Hf; subst f; [eapply send_packet_fields; eassumption|apply send_bw_fields in Ef; rewrite Ef; auto 6]. }
  destruct (c2 =? 0); [|injection H as <- <-; auto 6].
  destruct (IH (Forall_inv_tail Hl) _ _ _ H) as (A1 & B1 & C1 & D1 & G1). repeat split; congruence.
Qed.
Lemma conn_answer_kinds h t : Forall (fun fr => fst fr = send_packet \/ fst fr = send_bw) (conn_answer h t).
Proof. repeat (constructor; [cbn; auto|]). constructor. Qed.

Lemma ph1_sound lib evs : forall s pl pb tc params s',
  ph1 lib s evs = (CRet 0 pl pb tc params, s') ->
  exists before conn mid last rest bs cs t app c name,
    evs = before ++ conn :: mid ++ last :: rest /\
    commands lib before bs /\ Forall (fun c => ~ opens c) bs /\
    speaks lib conn (CConnect t app tc) /\
    commands lib mid cs /\ Forall (fun c => ~ starts_role c) cs /\
    speaks lib last c /\ role_of c pl pb name /\ params = str "/" ++ name /\
    (honest s -> filter about_commands (se_out s') = filter about_commands (se_out s) ++
       [RWinAck (announced 5 (hk_sbw (se_h s)) (before ++ [conn])); RPeerBW (announced 6 (hk_cbw (se_h s)) (before ++ [conn])); RChunk 128; RConnResult t] ++
       flat_map answer cs ++ role_answer c).
Proof.
  induction evs as [|ev evs IH]; intros s pl pb tc params s' H; [discriminate|].
  cbn [ph1] in H. destruct (hk_recv s ev) as [r s1] eqn:Er. pose proof (hk_recv_grew _ _ _ _ Er) as Hg.
  destruct r as [c|e| |]; try discriminate. apply hk_recv_fields in Er as (_ & Fs & Fc & _).
  destruct (c =? 0) eqn:Ec; cbn [negb] in H; [|injection H as -> _ _ _ _; lia].
  assert (forall obs, (obs = [] /\ (forall c, ~ speaks lib ev c) \/ exists c, obs = [c] /\ speaks lib ev c /\ ~ opens c) ->
    ph1 lib s1 evs = (CRet 0 pl pb tc params, s') ->
    exists before conn mid last rest bs cs t app c name,
    ev :: evs = before ++ conn :: mid ++ last :: rest /\
    commands lib before bs /\ Forall (fun c => ~ opens c) bs /\
    speaks lib conn (CConnect t app tc) /\
    commands lib mid cs /\ Forall (fun c => ~ starts_role c) cs /\
    speaks lib last c /\ role_of c pl pb name /\ params = str "/" ++ name /\
    (honest s -> filter about_commands (se_out s') = filter about_commands (se_out s) ++
       [RWinAck (announced 5 (hk_sbw (se_h s)) (before ++ [conn])); RPeerBW (announced 6 (hk_cbw (se_h s)) (before ++ [conn])); RChunk 128; RConnResult t] ++
       flat_map answer cs ++ role_answer c)) as Hrec.
  { intros obs Hobs H2. destruct (IH _ _ _ _ _ _ H2) as (before & conn & mid & last & rest & bs & cs & t & app & c0 & name & -> & Hb & Hbo & Hc & Hm & Hmo & Hl & Hr & Hp & Ho).
    exists (ev :: before), conn, mid, last, rest, (obs ++ bs), cs, t, app, c0, name.
    split; [reflexivity|]. split; [destruct Hobs as [(-> & Hn)|(c1 & -> & Hs & _)]; [apply cs_other; assumption|apply cs_cmd; assumption]|].
    split; [apply Forall_app; split; [|exact Hbo]; destruct Hobs as [(-> & _)|(c1 & -> & _ & Hn)]; [constructor|constructor; [exact Hn|constructor]]|].
    split; [exact Hc|]. split; [exact Hm|]. split; [exact Hmo|]. split; [exact Hl|]. split; [exact Hr|]. split; [exact Hp|].
    intros Hh. rewrite (Ho (grew_honest _ _ Hg Hh)), (grew_filter _ _ Hg). f_equal.
    change ((ev :: before) ++ [conn]) with ([ev] ++ (before ++ [conn])).
    rewrite (announced_app 5 [ev]), (announced_app 6 [ev]), <- Fs, <- Fc. reflexivity. }
  destruct (ev_decode lib ev) as [[c0|]|e| |] eqn:Ed; try discriminate.
  - apply ev_decode_some in Ed. destruct c0 as [t ap tc0|t|t name|t name|t name|t name];
      try (eapply Hrec; [|exact H]; right; eexists; split; [reflexivity|]; split; [exact Ed|]; intros []; fail).
    destruct (send_list s1 (conn_answer (se_h s1) t)) as [c2 s2] eqn:Es.
    destruct (c2 =? 0) eqn:E2; [|injection H as -> _ _ _ _; lia]. apply Z.eqb_eq in E2. subst c2.
    destruct (ph2_sound _ _ _ _ _ _ _ _ _ H) as (mid & last & rest & cs & c1 & name & -> & Hc & Hf & Hl & Hr & <- & Hp & Ho).
    exists [], ev, mid, last, rest, [], cs, t, ap, c1, name.
    split; [reflexivity|]. split; [constructor|]. split; [constructor|]. split; [exact Ed|]. split; [exact Hc|]. split; [exact Hf|].
    split; [exact Hl|]. split; [exact Hr|]. split; [exact Hp|]. intros Hh.
    destruct (send_list_0 _ (conn_answer_kinds _ _) _ _ Es (grew_honest _ _ Hg Hh)) as (Ho2 & Hh2).
    rewrite (Ho Hh2), Ho2, filter_app, (grew_filter _ _ Hg), <- app_assoc. f_equal. cbn [app]. rewrite <- Fs, <- Fc. reflexivity.
  - eapply Hrec; [|exact H]. left. split; [reflexivity|]. intros c0 Hc0. apply ev_decode_some in Hc0. congruence.
  - injection H as -> _ _ _ _ _. exfalso. eapply ev_decode_err; eauto.
Qed.
(** The flags are never set with an error. *)
Lemma ph2_flags lib tc evs : forall s c pl pb tc' params s',
  ph2 lib s tc evs = (CRet c pl pb tc' params, s') -> c <> 0 -> pl = false /\ pb = false.
Proof.
  induction evs as [|ev evs IH]; intros s c pl pb tc' params s' H Hc; [discriminate|].
  cbn [ph2] in H. destruct (hk_recv s ev) as [[c1|e| |] s1] eqn:Er; try discriminate.
  destruct (c1 =? 0) eqn:Ec; cbn [negb] in H; [|injection H as <- <- <- <- <- <-; auto].
  destruct (ev_decode lib ev) as [[c0|]|e| |] eqn:Ed; try discriminate; [|eauto|injection H as <- <- <- <- <- <-; auto].
  destruct c0 as [t ap tc0|t|t name|t name|t name|t name]; [eauto| | | | |].
  - destruct (send_packet s1 _) as [c2 s2]. destruct (c2 =? 0); [eauto|injection H as <- <- <- <- <- <-; auto].
  - destruct (nm_int t); [|discriminate]. destruct (send_list s1 _) as [c2 s2]. injection H as <- <- <- <- <- <-. split; lia.
  - destruct (nm_int t); [|discriminate]. destruct (send_list s1 _) as [c2 s2]. injection H as <- <- <- <- <- <-. split; lia.
  - destruct (send_packet s1 _) as [c2 s2]. destruct (c2 =? 0); [eauto|injection H as <- <- <- <- <- <-; auto].
  - destruct (send_packet s1 _) as [c2 s2]. destruct (c2 =? 0); [eauto|injection H as <- <- <- <- <- <-; auto].
Qed.
Lemma ph1_flags lib evs : forall s c pl pb tc params s',
  ph1 lib s evs = (CRet c pl pb tc params, s') -> c <> 0 -> pl = false /\ pb = false.
Proof.
  induction evs as [|ev evs IH]; intros s c pl pb tc params s' H Hc; [discriminate|].
  cbn [ph1] in H. destruct (hk_recv s ev) as [[c1|e| |] s1] eqn:Er; try discriminate.
  destruct (c1 =? 0) eqn:Ec; cbn [negb] in H; [|injection H as <- <- <- <- <- <-; auto].
  destruct (ev_decode lib ev) as [[c0|]|e| |] eqn:Ed; try discriminate; [|eauto|injection H as <- <- <- <- <- <-; auto].
  destruct c0 as [t ap tc0|t|t name|t name|t name|t name]; eauto.
  destruct (send_list s1 _) as [c2 s2]. destruct (c2 =? 0); [eapply ph2_flags; eauto|injection H as <- <- <- <- <- <-; auto].
Qed.

(** ** The connect phase: orderly clients succeed *)
Lemma hk_ack_ok s : se_sends s = [] -> - 2 ^ 31 <= hk_bytes (se_h s) + hk_cbw (se_h s) < 2 ^ 31 ->
  exists s1, hk_ack s = (Ok tt, s1) /\ se_sends s1 = [].
Proof.
  intros Hs Hb. unfold hk_ack. destruct (_ <? _); [eauto|].
  replace ((_ <? _) || (_ <=? _)) with false by lia. eexists. split; [reflexivity|].
  unfold send_packet, lib_send. cbn [se_sends]. rewrite Hs. reflexivity.
Qed.
Definition steady (s : sess) : Prop := se_sends s = [] /\ hk_cbw (se_h s) = 5000000 /\ 0 <= hk_bytes (se_h s).
Lemma orderly_recv lib s ev : orderly lib ev -> steady s -> hk_bytes (se_h s) + wire [ev] + 5000000 < 2 ^ 31 ->
  exists s1, hk_recv s ev = (Ok 0, s1) /\ steady s1 /\ hk_bytes (se_h s1) = hk_bytes (se_h s) + wire [ev].
Proof.
  intros (m & n & -> & Hn & H6 & H5 & _) (Hs & Hc & Hb) Hw. cbn [wire] in *.
  assert (exists s1, hk_recv s (RvMsg m n) = (Ok 0, s1) /\ se_sends s1 = []) as (s1 & Hr & Hs1).
  { cbn [hk_recv]. unfold hk_count. replace (2 ^ 31 <=? _) with false by lia.
    unfold on_recv. cbn [se_h se_sends se_out]. set (h := mkhk _ _ _ _ _ _).
    assert (forall h', hk_bytes h' = hk_bytes (se_h s) + n -> hk_cbw h' = 5000000 -> exists s1, match hk_ack (mkse h' (se_sends s) (se_out s)) with
      | (Ok _, s1) => (Ok 0, s1) | (Err c, s1) => (Err c, s1) | (UB, s1) => (UB, s1) | (Fuel, s1) => (Fuel, s1) end = (Ok 0, s1) /\ se_sends s1 = []) as Hgo.
    { intros h' Hb' Hc'. destruct (hk_ack_ok (mkse h' (se_sends s) (se_out s)) Hs) as (s1 & -> & Hs1); [cbn; rewrite Hb', Hc'; lia|]. eauto. }
    destruct (rm_type m =? RT_CHUNK_SIZE); [destruct (4 <=? zlen (rm_body m)); apply Hgo; auto|].
    destruct (rm_type m =? RT_CONTROL).
    { destruct (_ && _); [|apply Hgo; auto]. unfold send_pong, lib_send. cbn [se_sends se_out se_h]. rewrite Hs. eexists. split; reflexivity. }
    destruct (rm_type m =? RT_SERVER_BW) eqn:E5; [unfold RT_SERVER_BW in E5; replace (zlen (rm_body m) <? 4) with false by (specialize (H5 ltac:(lia)); lia); apply Hgo; auto|].
    destruct (rm_type m =? RT_CLIENT_BW) eqn:E6; [unfold RT_CLIENT_BW in E6; lia|]. apply Hgo; auto. }
  exists s1. split; [exact Hr|]. apply hk_recv_fields in Hr as (_ & _ & Hc1 & Hb1). cbn [announced wire] in *.
  replace (rm_type m =? 6) with false in Hc1 by lia. cbn [andb] in Hc1.
  split; [|exact Hb1]. split; [exact Hs1|]. split; [congruence|lia].
Qed.
Lemma convert_unknown nm vs : unknown_name nm -> convert_self (AStr nm :: vs) = Ok None.
Proof.
  intros H. cbn [convert_self]. unfold unknown_name in H. cbn [In] in H.
  rewrite !eqb_list_neq by (intros ->; tauto). reflexivity.
Qed.
Lemma orderly_decode lib ev : orderly lib ev ->
  (exists c, ev_decode lib ev = Ok (Some c) /\ speaks lib ev c) \/ (ev_decode lib ev = Ok None /\ forall c, ~ speaks lib ev c).
Proof.
  intros (m & n & -> & _ & _ & _ & Ha). cbn [ev_decode].
  assert (forall o, ev_decode lib (RvMsg m n) = Ok o -> (exists c, ev_decode lib (RvMsg m n) = Ok (Some c) /\ speaks lib (RvMsg m n) c) \/ (ev_decode lib (RvMsg m n) = Ok None /\ forall c, ~ speaks lib (RvMsg m n) c)) as Hfin.
  { intros [c|] H; [left; exists c; split; [exact H|apply ev_decode_some; exact H]|right].
    split; [exact H|]. intros c Hc. apply ev_decode_some in Hc. congruence. }
  destruct (is_command (rm_type m)) eqn:Ei.
  - destruct (Ha (proj1 (is_command_spec _) Ei)) as [[c Hc]|(nm & vs & Hl & Hn)].
    + apply ev_decode_some in Hc. eapply Hfin. exact Hc.
    + apply (Hfin None). cbn [ev_decode]. unfold rt_decode.
      replace (rm_type m =? RT_CHUNK_SIZE) with false by (unfold is_command, RT_CHUNK_SIZE, RT_AMF0_DATA, RT_AMF0_CMD, RT_AMF3_DATA, RT_AMF3_CMD in *; lia).
      rewrite Ei. change RT_AMF3_CMD with 17. rewrite Hl. apply convert_unknown. exact Hn.
  - apply (Hfin None). cbn [ev_decode]. unfold rt_decode. rewrite Ei. destruct (rm_type m =? RT_CHUNK_SIZE); reflexivity.
Qed.
Lemma send_packet_steady s r : steady s -> exists s1, send_packet s r = (0, s1) /\ steady s1 /\ hk_bytes (se_h s1) = hk_bytes (se_h s).
Proof.
  intros (Hs & Hc & Hb). destruct (send_packet s r) as [c s1] eqn:E. pose proof (send_packet_fields _ _ _ _ E) as (_ & _ & F1 & F2 & _).
  unfold send_packet, lib_send in E. rewrite Hs in E. injection E as <- <-. eexists. split; [reflexivity|].
  split; [|exact F2]. split; [reflexivity|]. split; congruence.
Qed.
Lemma send_bw_steady s r : steady s -> exists s1, send_bw s r = (0, s1) /\ steady s1 /\ hk_bytes (se_h s1) = hk_bytes (se_h s).
Proof.
  intros (Hs & Hc & Hb). unfold send_bw, lib_send. rewrite Hs. eexists. split; [reflexivity|]. split; [|reflexivity]. split; [reflexivity|]. auto.
Qed.
Lemma send_list_steady l : Forall (fun fr => fst fr = send_packet \/ fst fr = send_bw) l ->
  forall s, steady s -> exists s1, send_list s l = (0, s1) /\ steady s1 /\ hk_bytes (se_h s1) = hk_bytes (se_h s).
Proof.
  induction l as [|[f r] l IH]; intros Hl s Hs; [cbn; eauto|]. cbn [send_list].
  assert (exists s1, f s r = (0, s1) /\ steady s1 /\ hk_bytes (se_h s1) = hk_bytes (se_h s)) as (s1 & -> & Hs1 & Hb1).
  { destruct (Forall_inv Hl) as [Hf|Hf]; cbn [fst] in Hf; subst f; [apply send_packet_steady|apply send_bw_steady]; exact Hs. }
  cbn [Z.eqb]. destruct (IH (Forall_inv_tail Hl) s1 Hs1) as (s2 & H2 & Hs2 & Hb2). exists s2. split; [exact H2|]. split; [exact Hs2|]. lia.
Qed.
Lemma wire_app a b : wire (a ++ b) = wire a + wire b.
Proof. induction a as [|[m n|e t sz] a IH]; cbn [wire app]; [reflexivity| |]; lia. Qed.
Lemma wire_nonneg lib evs : Forall (orderly lib) evs -> 0 <= wire evs.
Proof.
  induction 1 as [|ev evs (m & n & -> & Hn & _) _ IH]; cbn [wire]; lia.
Qed.
Lemma ph2_complete lib tc mid : forall s last rest c pl pb name,
  Forall (orderly lib) mid -> (forall ev c, In ev mid -> speaks lib ev c -> ~ starts_role c) ->
  orderly lib last -> speaks lib last c -> role_of c pl pb name ->
  (forall t, c = CPlay t name \/ c = CPublish t name -> nm_int t <> None) ->
  steady s -> hk_bytes (se_h s) + wire (mid ++ [last]) + 5000000 < 2 ^ 31 ->
  exists s', ph2 lib s tc (mid ++ last :: rest) = (CRet 0 pl pb tc (str "/" ++ name), s').
Proof.
  induction mid as [|ev mid IH]; intros s last rest c pl pb name Hm Hns Hlo Hl Hr Ht Hs Hb.
  - cbn [app] in *. cbn [ph2]. destruct (orderly_recv lib s last Hlo Hs Hb) as (s1 & -> & Hs1 & Hb1). cbn [Z.eqb negb].
    apply ev_decode_some in Hl. rewrite Hl. destruct Hr as [(t & -> & -> & ->)|(t & -> & -> & ->)].
    + destruct (nm_int t) eqn:Et; [|exfalso; eapply Ht; [left; reflexivity|exact Et]].
      destruct (send_list_steady [(send_packet, RPlayStart); (send_packet, RSampleAccess); (send_packet, RStreamBegin 1)] ltac:(repeat (constructor; [cbn; auto|]); constructor) s1 Hs1) as (s2 & -> & _). cbn. eauto.
    + destruct (nm_int t) as [z|] eqn:Et; [|exfalso; eapply Ht; [right; reflexivity|exact Et]].
      destruct (send_list_steady [(send_packet, RPublishStart z); (send_packet, RStreamBegin 1)] ltac:(repeat (constructor; [cbn; auto|]); constructor) s1 Hs1) as (s2 & -> & _). cbn. eauto.
  - cbn [app] in *. cbn [ph2]. change (ev :: mid ++ [last]) with ([ev] ++ (mid ++ [last])) in Hb. rewrite wire_app in Hb.
    pose proof (wire_nonneg lib (mid ++ [last]) ltac:(apply Forall_app; split; [exact (Forall_inv_tail Hm)|constructor; [exact Hlo|constructor]])) as Hw.
    destruct (orderly_recv lib s ev (Forall_inv Hm) Hs ltac:(lia)) as (s1 & -> & Hs1 & Hb1). cbn [Z.eqb negb].
    assert (forall s2, steady s2 -> hk_bytes (se_h s2) = hk_bytes (se_h s1) -> exists s', ph2 lib s2 tc (mid ++ last :: rest) = (CRet 0 pl pb tc (str "/" ++ name), s')) as Hrec.
    { intros s2 Hs2 Hb2. eapply IH; eauto; [exact (Forall_inv_tail Hm)|intros e0 c0 Hin; apply Hns; right; exact Hin|lia]. }
    destruct (orderly_decode lib ev (Forall_inv Hm)) as [(c0 & -> & Hc0)|(-> & _)]; [|apply Hrec; auto].
    pose proof (Hns ev c0 (or_introl eq_refl) Hc0) as Hn0.
    destruct c0 as [t ap tc0|t|t nm|t nm|t nm|t nm]; [apply Hrec; auto| |exfalso; apply Hn0; exact I|exfalso; apply Hn0; exact I| |].
    + destruct (send_packet_steady s1 (RResult t 1) Hs1) as (s2 & -> & Hs2 & Hb2). cbn [Z.eqb]. apply Hrec; assumption.
    + destruct (send_packet_steady s1 (RResult t 0) Hs1) as (s2 & -> & Hs2 & Hb2). cbn [Z.eqb]. apply Hrec; assumption.
    + destruct (send_packet_steady s1 (RResult t 0) Hs1) as (s2 & -> & Hs2 & Hb2). cbn [Z.eqb]. apply Hrec; assumption.
Qed.
Lemma ph1_complete lib before : forall s conn t ap tc mid last rest c pl pb name,
  Forall (orderly lib) (before ++ conn :: mid ++ [last]) ->
  (forall ev c, In ev before -> speaks lib ev c -> ~ opens c) ->
  speaks lib conn (CConnect t ap tc) ->
  (forall ev c, In ev mid -> speaks lib ev c -> ~ starts_role c) ->
  speaks lib last c -> role_of c pl pb name ->
  (forall t, c = CPlay t name \/ c = CPublish t name -> nm_int t <> None) ->
  steady s -> hk_bytes (se_h s) + wire (before ++ conn :: mid ++ [last]) + 5000000 < 2 ^ 31 ->
  exists s', ph1 lib s (before ++ conn :: mid ++ last :: rest) = (CRet 0 pl pb tc (str "/" ++ name), s').
Proof.
  induction before as [|ev before IH]; intros s conn t ap tc mid last rest c pl pb name Ho Hbo Hconn Hns Hl Hr Ht Hs Hb.
  - cbn [app] in *. cbn [ph1]. change (conn :: mid ++ [last]) with ([conn] ++ (mid ++ [last])) in Hb. rewrite wire_app in Hb.
    pose proof (wire_nonneg lib _ (Forall_inv_tail Ho)) as Hw.
    destruct (orderly_recv lib s conn (Forall_inv Ho) Hs ltac:(lia)) as (s1 & -> & Hs1 & Hb1). cbn [Z.eqb negb].
    apply ev_decode_some in Hconn. rewrite Hconn.
    destruct (send_list_steady _ (conn_answer_kinds (se_h s1) t) s1 Hs1) as (s2 & -> & Hs2 & Hb2). cbn [Z.eqb].
    apply Forall_inv_tail in Ho. apply Forall_app in Ho as (Hm & Hlo).
    eapply ph2_complete; eauto; [exact (Forall_inv Hlo)|lia].
  - cbn [app] in *. cbn [ph1]. change (ev :: before ++ conn :: mid ++ [last]) with ([ev] ++ (before ++ conn :: mid ++ [last])) in Hb. rewrite wire_app in Hb.
    pose proof (wire_nonneg lib _ (Forall_inv_tail Ho)) as Hw.
    destruct (orderly_recv lib s ev (Forall_inv Ho) Hs ltac:(lia)) as (s1 & -> & Hs1 & Hb1). cbn [Z.eqb negb].
    assert (exists s', ph1 lib s1 (before ++ conn :: mid ++ last :: rest) = (CRet 0 pl pb tc (str "/" ++ name), s')) as Hrec.
    { eapply IH; eauto; [exact (Forall_inv_tail Ho)|intros e0 c0 Hin; apply Hbo; right; exact Hin|lia]. }
    destruct (orderly_decode lib ev (Forall_inv Ho)) as [(c0 & -> & Hc0)|(-> & _)]; [|exact Hrec].
    pose proof (Hbo ev c0 (or_introl eq_refl) Hc0) as Hn0.
    destruct c0; try exact Hrec. exfalso. apply Hn0. exact I.
Qed.

(** ** Acknowledgements *)
Lemma acks_app a b : acks (a ++ b) = acks a ++ acks b.
Proof. induction a as [|r a IH]; cbn [acks app]; [reflexivity|]. destruct r; try exact IH. cbn. f_equal. exact IH. Qed.
Lemma last_app_one {A} (l : list A) x d : last (l ++ [x]) d = x.
Proof. induction l as [|y l IH]; [reflexivity|]. cbn [app last]. destruct (l ++ [x]) eqn:E; [destruct l; discriminate|]. exact IH. Qed.
Lemma s32_small x : 0 <= x < 2 ^ 31 -> s32 x = x.
Proof. intros H. unfold s32. rewrite Z.mod_small by lia. lia. Qed.
(** The bytes not yet acknowledged stay below the window. *)
Definition kept_up (s : sess) : Prop :=
  0 <= hk_bytes (se_h s) < hk_next (se_h s) /\ 0 < hk_cbw (se_h s) /\
  hk_next (se_h s) <= last_ack (se_out s) + hk_cbw (se_h s) /\ 0 <= last_ack (se_out s) <= hk_bytes (se_h s) /\
  Forall (fun r => r = SOk) (se_sends s).
Lemma ack_step h sends out r s1 : 0 <= hk_bytes h -> 0 < hk_cbw h -> Forall (fun r => r = SOk) sends ->
  hk_next h <= last_ack out + hk_cbw h -> 0 <= last_ack out <= hk_bytes h ->
  hk_ack (mkse h sends out) = (Ok r, s1) ->
  kept_up s1 /\ (acks (se_out s1) = acks out \/ acks (se_out s1) = acks out ++ [hk_bytes h]) /\ hk_bytes (se_h s1) = hk_bytes h.
Proof.
  intros Hb Hc Hs Hn Hl. unfold hk_ack. cbn [se_h se_sends se_out].
  destruct (hk_bytes h <? hk_next h) eqn:E.
  { intros [= <- <-]. split; [|split; [left; reflexivity|reflexivity]]. unfold kept_up. cbn [se_h se_out se_sends]. split; [lia|]. auto. }
  destruct (_ || _); [discriminate|]. intros [= <- <-]. unfold send_packet, lib_send. cbn [se_sends se_h se_out].
  destruct sends as [|[|c] sends]; [| |exfalso; apply Forall_inv in Hs; discriminate].
  - cbn [snd se_h se_out se_sends on_send tl hk_bytes hk_next hk_cbw]. split; [|split; [right; rewrite acks_app; reflexivity|reflexivity]].
    unfold kept_up. cbn [se_h se_out se_sends hk_bytes hk_next hk_cbw]. unfold last_ack. rewrite acks_app. cbn [acks]. rewrite last_app_one.
    split; [lia|]. split; [lia|]. split; [lia|]. split; [lia|constructor].
  - cbn [snd se_h se_out se_sends on_send tl hk_bytes hk_next hk_cbw]. split; [|split; [right; rewrite acks_app; reflexivity|reflexivity]].
    unfold kept_up. cbn [se_h se_out se_sends hk_bytes hk_next hk_cbw]. unfold last_ack. rewrite acks_app. cbn [acks]. rewrite last_app_one.
    split; [lia|]. split; [lia|]. split; [lia|]. split; [lia|exact (Forall_inv_tail Hs)].
Qed.
Lemma ping_bytes b : bytes b -> 6 <= zlen b -> bev (take 2 b) = 6 ->
  exists ts more, b = [0; 6] ++ ts ++ more /\ length ts = 4%nat.
Proof.
  intros Hb Hl H. destruct b as [|b0 [|b1 [|b2 [|b3 [|b4 [|b5 b]]]]]]; try (cbn in Hl; lia).
  exists [b2; b3; b4; b5], b. split; [|reflexivity]. pose proof (Forall_inv Hb) as H0. pose proof (Forall_inv (Forall_inv_tail Hb)) as H1.
  unfold byte in *. rewrite !take_cons, take_0 in H by lia. rewrite !bev_cons, bev_nil in H. cbn in H.
  assert (b0 = 0) as -> by lia. assert (b1 = 6) as -> by lia. reflexivity.
Qed.
Lemma plain_recv s ev c s1 : plain ev -> kept_up s -> hk_recv s ev = (Ok c, s1) ->
  kept_up s1 /\ c = 0 /\ (acks (se_out s1) = acks (se_out s) \/ acks (se_out s1) = acks (se_out s) ++ [hk_bytes (se_h s1)]).
Proof.
  intros (m & n & -> & Hn & Hp & Hby & H5 & H6) ((Hb & Hbn) & Hc & Hnx & Hla & Hs). cbn [hk_recv]. unfold hk_count.
  destruct (2 ^ 31 <=? _) eqn:Eo; [discriminate|]. unfold on_recv. cbn [se_h se_sends se_out]. set (h := mkhk _ _ _ _ _ _).
  assert (forall h', hk_bytes h' = hk_bytes (se_h s) + n -> 0 < hk_cbw h' -> hk_next h' <= last_ack (se_out s) + hk_cbw h' ->
    match hk_ack (mkse h' (se_sends s) (se_out s)) with
      | (Ok _, s1) => (Ok 0, s1) | (Err c, s1) => (Err c, s1) | (UB, s1) => (UB, s1) | (Fuel, s1) => (Fuel, s1) end = (Ok c, s1) ->
    kept_up s1 /\ c = 0 /\ (acks (se_out s1) = acks (se_out s) \/ acks (se_out s1) = acks (se_out s) ++ [hk_bytes (se_h s1)])) as Hgo.
  { intros h' Hb' Hc' Hn' H. destruct (hk_ack (mkse h' (se_sends s) (se_out s))) as [[x|e| |] s2] eqn:Ea; try discriminate.
    injection H as <- <-. apply ack_step in Ea; try lia; [|exact Hs]. destruct Ea as (A & B & C). split; [exact A|]. split; [reflexivity|]. rewrite C. exact B. }
  unfold RT_CHUNK_SIZE, RT_CONTROL, RT_SERVER_BW, RT_CLIENT_BW.
  destruct (rm_type m =? 1); [destruct (4 <=? zlen (rm_body m)); apply Hgo; cbn; lia|].
  destruct (rm_type m =? 4) eqn:E4.
  { destruct (_ && _) eqn:Eb; [|apply Hgo; cbn; lia]. exfalso. apply Hp. apply andb_prop in Eb as (Eb1 & Eb2).
    destruct (ping_bytes (rm_body m) Hby ltac:(lia) ltac:(lia)) as (ts & more & Hbd & Hts).
    exists m, n, ts, more. split; [reflexivity|]. split; [lia|]. auto. }
  destruct (rm_type m =? 5); [destruct (zlen (rm_body m) <? 4); [discriminate|]; apply Hgo; cbn; lia|].
  destruct (rm_type m =? 6) eqn:E6; [|apply Hgo; cbn; lia].
  destruct (H6 ltac:(lia)) as (Hl4 & Hv). replace (zlen (rm_body m) <? 4) with false by lia.
  assert (be32s (rm_body m) = bev (take 4 (rm_body m))) as Hbe by (apply s32_small; lia).
  apply Hgo; cbn [hk_bytes hk_cbw hk_next h]; rewrite ?Hbe; lia.
Qed.
Lemma subseq_app a b x : subseq a b -> subseq (a ++ [x]) (b ++ [x]).
Proof. induction 1 as [l|y a b _ IH|y a b _ IH]; cbn; [|constructor; exact IH|constructor; exact IH].
  induction l; cbn; [repeat constructor|constructor; assumption]. Qed.
Lemma subseq_app_r a b x : subseq a b -> subseq a (b ++ [x]).
Proof. induction 1; cbn; constructor; assumption. Qed.
Lemma plain_run evs : forall s c s', Forall plain evs -> kept_up s -> hk_run s evs = (Ok c, s') ->
  kept_up s' /\ c = 0 /\ hk_bytes (se_h s') = hk_bytes (se_h s) + wire evs /\
  exists more, acks (se_out s') = acks (se_out s) ++ more /\ subseq more (totals (hk_bytes (se_h s)) evs).
Proof.
  induction evs as [|ev evs IH]; intros s c s' Hp Hk H.
  - cbn in H. injection H as <- <-. split; [exact Hk|]. split; [reflexivity|]. split; [cbn; lia|]. exists []. rewrite app_nil_r. split; [reflexivity|constructor].
  - cbn [hk_run] in H. destruct (hk_recv s ev) as [[c1|e| |] s1] eqn:Er; try discriminate.
    pose proof (hk_recv_fields _ _ _ _ Er) as (_ & _ & _ & Hb).
    destruct (plain_recv _ _ _ _ (Forall_inv Hp) Hk Er) as (Hk1 & -> & Ha). cbn [Z.eqb] in H.
    destruct (IH _ _ _ (Forall_inv_tail Hp) Hk1 H) as (Hk2 & -> & Hb2 & more & Hm & Hss).
    split; [exact Hk2|]. split; [reflexivity|].
    destruct (Forall_inv Hp) as (m & n & -> & _). cbn [wire totals] in *. split; [lia|].
    rewrite Z.add_0_r in Hb. rewrite Hb in *. destruct Ha as [Ha|Ha].
    + exists more. rewrite Hm, Ha. split; [reflexivity|]. constructor. exact Hss.
    + exists (hk_bytes (se_h s) + n :: more). rewrite Hm, Ha, <- app_assoc. split; [reflexivity|]. constructor. exact Hss.
Qed.
(** Pings are answered with 0 and never acknowledged. *)
Lemma ping_recv s ev c s1 : is_ping ev -> hk_recv s ev = (Ok c, s1) -> acks (se_out s1) = acks (se_out s) /\
  (se_out s1 = se_out s ++ [RPong 0] \/ (se_out s1 = se_out s /\ exists e l, se_sends s = SFail e :: l)).
Proof.
  intros (m & n & ts & more & -> & Ht & Hb & Hl). cbn [hk_recv]. unfold hk_count. destruct (2 ^ 31 <=? _); [discriminate|].
  unfold on_recv. rewrite Ht. cbn [Z.eqb RT_CHUNK_SIZE RT_CONTROL se_h se_sends se_out]. change (4 =? RT_CHUNK_SIZE) with false. change (4 =? RT_CONTROL) with true. cbv iota.
  rewrite Hb. destruct ts as [|t0 [|t1 [|t2 [|t3 [|]]]]]; try discriminate. cbn [app].
  replace (6 <=? zlen _) with true by (rewrite !zlen_cons; pose proof (zlen_nonneg more); lia).
  rewrite !take_cons, take_0 by lia. change (bev [0; 6] =? 6) with true. cbn [andb].
  unfold send_pong. match goal with |- context [lib_send ?s0 _] => destruct (lib_send_cases s0 (RPong 0)) as [(e & l & Hs & ->)|(-> & _)] end; intros [= <- <-]; cbn [se_out se_sends] in *.
  - split; [reflexivity|]. right. split; [reflexivity|]. eauto.
  - rewrite acks_app. cbn. rewrite app_nil_r. auto.
Qed.

(** ** What survives the connect phase *)
Lemma ph2_in lib tc evs : forall s c pl pb tc' params s',
  ph2 lib s tc evs = (CRet c pl pb tc' params, s') ->
  exists used rest, evs = used ++ rest /\ (c = 0 -> hk_in (se_h s') = announced 1 (hk_in (se_h s)) used).
Proof.
  induction evs as [|ev evs IH]; intros s c pl pb tc' params s' H; [discriminate|].
  cbn [ph2] in H. destruct (hk_recv s ev) as [[c1|e| |] s1] eqn:Er; try discriminate. apply hk_recv_fields in Er as (Fi & _).
  assert (forall s2, hk_in (se_h s2) = hk_in (se_h s1) -> ph2 lib s2 tc evs = (CRet c pl pb tc' params, s') ->
    exists used rest, ev :: evs = used ++ rest /\ (c = 0 -> hk_in (se_h s') = announced 1 (hk_in (se_h s)) used)) as Hrec.
  { intros s2 H2 Hp. destruct (IH _ _ _ _ _ _ _ Hp) as (used & rest & -> & Hu). exists (ev :: used), rest. split; [reflexivity|].
    intros Hc. rewrite (Hu Hc), H2, Fi. change (ev :: used) with ([ev] ++ used). rewrite announced_app. reflexivity. }
  assert (forall s2, hk_in (se_h s2) = hk_in (se_h s1) -> s2 = s' -> exists used rest, ev :: evs = used ++ rest /\ (c = 0 -> hk_in (se_h s') = announced 1 (hk_in (se_h s)) used)) as Hstop.
  { intros s2 H2 <-. exists [ev], evs. split; [reflexivity|]. intros _. congruence. }
  destruct (c1 =? 0) eqn:Ec; cbn [negb] in H; [|injection H as _ _ _ _ _ <-; eapply Hstop; reflexivity].
  destruct (ev_decode lib ev) as [[c0|]|e| |] eqn:Ed; try discriminate; [|eapply Hrec; [reflexivity|exact H]|injection H as _ _ _ _ _ <-; eapply Hstop; reflexivity].
  destruct c0 as [t ap tc0|t|t name|t name|t name|t name]; [eapply Hrec; [reflexivity|exact H]| | | | |].
  - destruct (send_packet s1 _) as [c2 s2] eqn:Es. apply send_packet_fields in Es as (Es & _).
    destruct (c2 =? 0); [eapply Hrec; eassumption|injection H as _ _ _ _ _ <-; eapply Hstop; [exact Es|reflexivity]].
  - destruct (nm_int t); [|discriminate]. destruct (send_list s1 _) as [c2 s2] eqn:Es.
    apply send_list_fields in Es as (Es & _); [|repeat (constructor; [cbn; auto|]); constructor]. injection H as _ _ _ _ _ <-. eapply Hstop; [exact Es|reflexivity].
  - destruct (nm_int t); [|discriminate]. destruct (send_list s1 _) as [c2 s2] eqn:Es.
    apply send_list_fields in Es as (Es & _); [|repeat (constructor; [cbn; auto|]); constructor]. injection H as _ _ _ _ _ <-. eapply Hstop; [exact Es|reflexivity].
  - destruct (send_packet s1 _) as [c2 s2] eqn:Es. apply send_packet_fields in Es as (Es & _).
    destruct (c2 =? 0); [eapply Hrec; eassumption|injection H as _ _ _ _ _ <-; eapply Hstop; [exact Es|reflexivity]].
  - destruct (send_packet s1 _) as [c2 s2] eqn:Es. apply send_packet_fields in Es as (Es & _).
    destruct (c2 =? 0); [eapply Hrec; eassumption|injection H as _ _ _ _ _ <-; eapply Hstop; [exact Es|reflexivity]].
Qed.
Lemma ph1_in lib evs : forall s pl pb tc params s',
  ph1 lib s evs = (CRet 0 pl pb tc params, s') ->
  exists used rest, evs = used ++ rest /\ hk_in (se_h s') = announced 1 (hk_in (se_h s)) used.
Proof.
  induction evs as [|ev evs IH]; intros s pl pb tc params s' H; [discriminate|].
  cbn [ph1] in H. destruct (hk_recv s ev) as [[c1|e| |] s1] eqn:Er; try discriminate. apply hk_recv_fields in Er as (Fi & _).
  destruct (c1 =? 0) eqn:Ec; cbn [negb] in H; [|injection H as -> _ _ _ _ _; lia].
  assert (forall s2 used rest, evs = used ++ rest -> hk_in (se_h s') = announced 1 (hk_in (se_h s2)) used -> hk_in (se_h s2) = hk_in (se_h s1) ->
    exists used rest, ev :: evs = used ++ rest /\ hk_in (se_h s') = announced 1 (hk_in (se_h s)) used) as Hrec.
  { intros s2 used rest -> Hu H2. exists (ev :: used), rest. split; [reflexivity|].
    rewrite Hu, H2, Fi. change (ev :: used) with ([ev] ++ used). rewrite announced_app. reflexivity. }
  assert (ph1 lib s1 evs = (CRet 0 pl pb tc params, s') -> exists used rest, ev :: evs = used ++ rest /\ hk_in (se_h s') = announced 1 (hk_in (se_h s)) used) as Hgo.
  { intros H2. destruct (IH _ _ _ _ _ _ H2) as (used & rest & He & Hu). eapply Hrec; eauto. }
  destruct (ev_decode lib ev) as [[c0|]|e| |] eqn:Ed; try discriminate; [|auto|].
  - destruct c0 as [t ap tc0|t|t name|t name|t name|t name]; auto.
    destruct (send_list s1 _) as [c2 s2] eqn:Es. pose proof (send_list_fields _ (conn_answer_kinds _ _) _ _ _ Es) as (F2 & _).
    destruct (c2 =? 0) eqn:E2; [|injection H as -> _ _ _ _ _; lia].
    destruct (ph2_in _ _ _ _ _ _ _ _ _ _ H) as (used & rest & He & Hu). eapply Hrec; eauto.
  - injection H as -> _ _ _ _ _. exfalso. eapply ev_decode_err; eauto.
Qed.

(** ** The peer's window has no effect *)
Definition same_but_window (e e' : rev) : Prop :=
  e = e' \/ exists m m' n, e = RvMsg m n /\ e' = RvMsg m' n /\ rm_type m = 5 /\ rm_type m' = 5 /\ 4 <= zlen (rm_body m) /\ 4 <= zlen (rm_body m').
Definition same_but_sbw (s s' : sess) : Prop :=
  se_sends s = se_sends s' /\ se_out s = se_out s' /\ exists w,
  se_h s' = mkhk (hk_in (se_h s)) (hk_outc (se_h s)) w (hk_cbw (se_h s)) (hk_next (se_h s)) (hk_bytes (se_h s)).
Lemma hk_ack_sim s s' : same_but_sbw s s' -> fst (hk_ack s) = fst (hk_ack s') /\ same_but_sbw (snd (hk_ack s)) (snd (hk_ack s')).
Proof.
  intros H. pose proof H as (Hs & Ho & w & Hh). unfold hk_ack. rewrite Hh. cbn [hk_bytes hk_next hk_cbw hk_in hk_outc hk_sbw].
  destruct (_ <? _); [auto|]. destruct (_ || _); [auto|]. cbn [fst snd]. split; [reflexivity|].
  unfold send_packet, lib_send. cbn [se_sends se_h se_out]. rewrite <- Hs, <- Ho.
  destruct (se_sends s) as [|[|c] l]; cbn; split; try reflexivity; split; try reflexivity; exists w; reflexivity.
Qed.
Lemma go_sim s s' : same_but_sbw s s' ->
  let f x := match hk_ack x with | (Ok _, s1) => (Ok 0, s1) | (Err c, s1) => (Err c, s1) | (UB, s1) => (UB, s1) | (Fuel, s1) => (Fuel, s1) end in
  fst (f s) = fst (f s') /\ same_but_sbw (snd (f s)) (snd (f s')).
Proof.
  intros H f. unfold f. destruct (hk_ack_sim s s' H) as (A & B). destruct (hk_ack s) as [[x|e| |] s1], (hk_ack s') as [[x'|e'| |] s1']; cbn [fst snd] in *; try discriminate; split; try congruence; exact B.
Qed.
Lemma hk_recv_sim s s' e e' : same_but_sbw s s' -> same_but_window e e' ->
  fst (hk_recv s e) = fst (hk_recv s' e') /\ same_but_sbw (snd (hk_recv s e)) (snd (hk_recv s' e')).
Proof.
  intros H He. pose proof H as (Hs & Ho & w & Hh). destruct He as [<-|(m & m' & n & -> & -> & T & T' & L & L')].
  - destruct e as [m n|c t sz]; cbn [hk_recv]; [|auto]. unfold hk_count. rewrite Hh. cbn [hk_bytes hk_next hk_cbw hk_in hk_outc hk_sbw].
    destruct (2 ^ 31 <=? _); [auto|]. unfold on_recv. cbn [se_h se_sends se_out hk_bytes hk_next hk_cbw hk_in hk_outc hk_sbw]. rewrite <- Hs, <- Ho.
    assert (forall i o sb sb' cb nx b, same_but_sbw (mkse (mkhk i o sb cb nx b) (se_sends s) (se_out s)) (mkse (mkhk i o sb' cb nx b) (se_sends s) (se_out s))) as Hsim.
    { intros. split; [reflexivity|]. split; [reflexivity|]. exists sb'. reflexivity. }
    destruct (rm_type m =? RT_CHUNK_SIZE); [destruct (4 <=? zlen (rm_body m)); apply go_sim; apply Hsim|].
    destruct (rm_type m =? RT_CONTROL).
    { destruct (_ && _); [|apply go_sim; apply Hsim]. unfold send_pong, lib_send. cbn [se_sends se_h se_out].
      destruct (se_sends s) as [|[|c] l]; cbn; split; try reflexivity; split; try reflexivity; split; try reflexivity; exists w; reflexivity. }
    destruct (rm_type m =? RT_SERVER_BW); [destruct (zlen (rm_body m) <? 4); [split; [reflexivity|apply Hsim]|apply go_sim; apply Hsim]|].
    destruct (rm_type m =? RT_CLIENT_BW); [destruct (zlen (rm_body m) <? 4); [split; [reflexivity|apply Hsim]|apply go_sim; apply Hsim]|].
    apply go_sim; apply Hsim.
  - cbn [hk_recv]. unfold hk_count. rewrite Hh. cbn [hk_bytes hk_next hk_cbw hk_in hk_outc hk_sbw].
    destruct (2 ^ 31 <=? _); [auto|]. unfold on_recv. rewrite T, T'. cbn [se_h se_sends se_out hk_bytes hk_next hk_cbw hk_in hk_outc hk_sbw].
    change (5 =? RT_CHUNK_SIZE) with false. change (5 =? RT_CONTROL) with false. change (5 =? RT_SERVER_BW) with true. cbv iota.
    replace (zlen (rm_body m) <? 4) with false by lia. replace (zlen (rm_body m') <? 4) with false by lia.
    apply go_sim. rewrite <- Hs, <- Ho. split; [reflexivity|]. split; [reflexivity|]. exists (be32s (rm_body m')). reflexivity.
Qed.
Lemma hk_run_sim evs evs' : Forall2 same_but_window evs evs' -> forall s s', same_but_sbw s s' ->
  fst (hk_run s evs) = fst (hk_run s' evs') /\ same_but_sbw (snd (hk_run s evs)) (snd (hk_run s' evs')).
Proof.
  induction 1 as [|e e' evs evs' He _ IH]; intros s s' H; [cbn; auto|]. cbn [hk_run].
  destruct (hk_recv_sim s s' e e' H He) as (A & B).
  destruct (hk_recv s e) as [[c|x| |] s1], (hk_recv s' e') as [[c'|x'| |] s1']; cbn [fst snd] in *; try discriminate; [|split; [congruence|exact B]|auto|auto].
  injection A as <-. destruct (c =? 0); [apply IH; exact B|auto].
Qed.

(** Nothing is acknowledged before the first five million bytes. *)
Lemma early_run evs : forall s c s', Forall no_peer_bw evs -> Forall (fun ev => 0 <= wire [ev]) evs ->
  hk_next (se_h s) = 5000000 -> hk_bytes (se_h s) + wire evs < 5000000 ->
  hk_run s evs = (Ok c, s') -> acks (se_out s') = acks (se_out s).
Proof.
  induction evs as [|ev evs IH]; intros s c s' Hn Hw Hx Hb H; [cbn in H; injection H as <- <-; reflexivity|].
  change (ev :: evs) with ([ev] ++ evs) in Hb. rewrite wire_app in Hb.
  assert (0 <= wire evs) as Hwe.
  { pose proof (Forall_inv_tail Hw) as Hw'. clear - Hw'. induction Hw' as [|[m n|e t sz] l Hx _ IHl]; cbn [wire] in *; lia. }
  pose proof (Forall_inv Hw) as Hw0. cbn [hk_run] in H.
  assert (forall c1 s1, hk_recv s ev = (Ok c1, s1) -> acks (se_out s1) = acks (se_out s) /\ hk_next (se_h s1) = 5000000) as Hone.
  { intros c1 s1 Er. destruct ev as [m n|e t sz]; cbn [hk_recv] in Er; [|injection Er as <- <-; auto].
    cbn [wire] in Hw0, Hb. unfold hk_count in Er. destruct (2 ^ 31 <=? _); [discriminate|]. unfold on_recv in Er. cbn [se_h se_sends se_out hk_bytes hk_next hk_cbw hk_in hk_outc hk_sbw] in Er.
    assert (forall h', hk_next h' = 5000000 -> hk_bytes h' = hk_bytes (se_h s) + n -> match hk_ack (mkse h' (se_sends s) (se_out s)) with
      | (Ok _, s1) => (Ok 0, s1) | (Err c, s1) => (Err c, s1) | (UB, s1) => (UB, s1) | (Fuel, s1) => (Fuel, s1) end = (Ok c1, s1) -> acks (se_out s1) = acks (se_out s) /\ hk_next (se_h s1) = 5000000) as Hgo.
    { intros h' Hnx Hbx. unfold hk_ack. cbn [se_h]. replace (hk_bytes h' <? hk_next h') with true by lia. intros [= <- <-]. auto. }
    destruct (rm_type m =? RT_CHUNK_SIZE); [destruct (4 <=? zlen (rm_body m)); revert Er; apply Hgo; auto|].
    destruct (rm_type m =? RT_CONTROL).
    { destruct (_ && _); [|revert Er; apply Hgo; auto]. unfold send_pong, lib_send in Er. cbn [se_sends se_out se_h] in Er.
      destruct (se_sends s) as [|[|e] l]; injection Er as <- <-; cbn [se_out se_h hk_next]; rewrite ?acks_app; cbn [acks]; rewrite ?app_nil_r; auto. }
    destruct (rm_type m =? RT_SERVER_BW); [destruct (zlen (rm_body m) <? 4); [discriminate|]; revert Er; apply Hgo; auto|].
    destruct (rm_type m =? RT_CLIENT_BW) eqn:E6; [exfalso; apply (Forall_inv Hn m n eq_refl); apply Z.eqb_eq in E6; exact E6|].
    revert Er; apply Hgo; auto. }
  destruct (hk_recv s ev) as [[c1|e| |] s1] eqn:Er; try discriminate.
  destruct (Hone _ _ eq_refl) as (A & B). pose proof (hk_recv_fields _ _ _ _ Er) as (_ & _ & _ & Hb1).
  destruct (c1 =? 0); [|injection H as <- <-; exact A].
  rewrite <- A. eapply IH; [exact (Forall_inv_tail Hn)|exact (Forall_inv_tail Hw)|exact B| |exact H]. lia.
Qed.
Lemma run_bytes evs : forall s s', hk_run s evs = (Ok 0, s') -> hk_bytes (se_h s) < 2 ^ 31 ->
  hk_bytes (se_h s') = hk_bytes (se_h s) + wire evs /\ hk_bytes (se_h s') < 2 ^ 31.
Proof.
  induction evs as [|ev evs IH]; intros s s' H Hb; [cbn in H; injection H as <-; cbn; lia|].
  cbn [hk_run] in H. destruct (hk_recv s ev) as [[c1|e| |] s1] eqn:Er; try discriminate.
  pose proof (hk_recv_fields _ _ _ _ Er) as (_ & _ & _ & Hb1).
  destruct (c1 =? 0) eqn:Ec; [|injection H as -> _; lia].
  assert (hk_bytes (se_h s1) < 2 ^ 31) as Hlt.
  { destruct ev as [m n|e t sz]; cbn [hk_recv wire] in *; [|injection Er as _ <-; lia].
    unfold hk_count in Er. destruct (2 ^ 31 <=? hk_bytes (se_h s) + n) eqn:E; [discriminate|]. lia. }
  destruct (IH s1 s' H Hlt) as (A & B). change (ev :: evs) with ([ev] ++ evs). rewrite wire_app. lia.
Qed.

(** ** A small library and client for the examples *)
Definition one : num := mknum 0x3ff0000000000000 (Some 1).
Definition ex_amf : amf_lib := fun _ b =>
  match b with
  | [1] => Some [AStr (str "connect"); ANum one; AObj [(str "app", AStr (str "live")); (str "tcUrl", AStr (str "rtmp://h/live"))]]
  | [2] => Some [AStr (str "createStream"); ANum (mknum 0x4000000000000000 (Some 2)); ANull]
  | [3] => Some [AStr (str "publish"); ANum (mknum 0x4008000000000000 (Some 3)); ANull; AStr (str "a"); AStr (str "live")]
  | [4] => Some [AStr (str "play"); ANum (mknum 0x4010000000000000 (Some 4)); ANull; AStr (str "a")]
  | [5] => Some [AStr (str "connect"); ANum one; ANull]
  | [6] => Some [AStr (str "_checkbw"); ANum one; ANull]
  | [7] => Some [AStr (str "connect"); ANum one; AObj [(str "app", AStr (str "live")); (str "tcUrl", AStr (str "rtmp://h/live?vhost=x"))]]
  | [8] => Some [AStr (str "publish"); ANum one; ANull; AStr (str "b"); AStr (str "live")]
  | _ => None
  end.
Definition ex_cmd (k : Z) : rev := RvMsg (mkrm 20 0 0 3 [k]) 50.
