(** RTMP sessions: property theorems. *)
From Verif Require Import Base M_Text M_Rtmp M_Url S_Url L_Url P_Url M_RtmpSess S_RtmpSess L_RtmpSess.

(** C86: which messages are commands. *)
Theorem rtmp_command_reading : forall lib ev c, ev_decode lib ev = Ok (Some c) <-> speaks lib ev c.
Proof. exact ev_decode_some. Qed.
Print Assumptions rtmp_command_reading.
Example rtmp_command_reading_ex :
  ev_decode ex_amf (ex_cmd 3) = Ok (Some (CPublish (mknum 0x4008000000000000 (Some 3)) (str "a"))) /\
  ev_decode ex_amf (ex_cmd 6) = Ok None /\ ev_decode ex_amf (ex_cmd 9) = Err ERROR_RTMP_AMF_DECODE /\
  speaks ex_amf (ex_cmd 4) (CPlay (mknum 0x4010000000000000 (Some 4)) (str "a")).
Proof. repeat split; try reflexivity. apply rtmp_command_reading. reflexivity. Qed.

(** What becomes of a message that is no command: other types and names the
    server has no use for are passed over; what the library cannot read, values
    that do not begin with a name, and one of the six names with the wrong values
    behind it are errors, each with its code; connect with a null object, see C87. *)
Theorem rtmp_no_command : forall lib m n, let r := ev_decode lib (RvMsg m n) in
  (~ amf_type (rm_type m) -> r = Ok None) /\
  (amf_type (rm_type m) ->
    (lib (rm_type m =? 17) (rm_body m) = None -> r = Err ERROR_RTMP_AMF_DECODE) /\
    (lib (rm_type m =? 17) (rm_body m) = Some [] -> r = Err ERROR_RTMP_AMF_CMD_CONVERT) /\
    (forall v vs, lib (rm_type m =? 17) (rm_body m) = Some (v :: vs) ->
      ((forall nm, v <> AStr nm) -> r = Err ERROR_RTMP_AMF_PROP_TYPE) /\
      (forall nm, v = AStr nm -> (unknown_name nm -> r = Ok None) /\
        (~ unknown_name nm -> (forall c, ~ spoken (v :: vs) c) ->
           r = Err ERROR_RTMP_AMF_CMD_CONVERT \/
           (nm = str "connect" /\ r = UB /\ exists t more, vs = ANum t :: ANull :: more))))).
Proof. exact no_command. Qed.
Print Assumptions rtmp_no_command.
Example rtmp_no_command_ex :
  let lib : amf_lib := fun _ b => match b with [1] => Some [AStr (str "createStream"); ANull; ANull] | [2] => Some [ANull; AStr (str "play")] | _ => Some [] end in
  ev_decode lib (ex_cmd 1) = Err ERROR_RTMP_AMF_CMD_CONVERT /\ ev_decode lib (ex_cmd 2) = Err ERROR_RTMP_AMF_PROP_TYPE /\
  ev_decode lib (ex_cmd 3) = Err ERROR_RTMP_AMF_CMD_CONVERT /\
  ~ unknown_name (str "createStream") /\ (forall c, ~ spoken [AStr (str "createStream"); ANull; ANull] c) /\ unknown_name (str "_checkbw").
Proof.
  cbv zeta. do 3 (split; [reflexivity|]). unfold unknown_name. cbn [In]. split; [tauto|]. split; [intros c H; inversion H|].
  intros [H|[H|[H|[H|[H|[H|[]]]]]]]; discriminate H.
Qed.

(** C37: a connect phase that succeeds had a connect command, no role before
    it, and ends with the first play or publish after it, in exactly that
    role; what was sent is the answer to connect, one result per command in
    between, in order, and the start of the role. *)
Theorem rtmp_connect_one_role :
  forall lib n0 sends evs pl pb tc params s,
    pre_connect lib n0 sends evs = (CRet 0 pl pb tc params, s) ->
    exists before conn mid last rest bs cs t app c name,
      evs = before ++ conn :: mid ++ last :: rest /\
      commands lib before bs /\ Forall (fun c => ~ opens c) bs /\
      speaks lib conn (CConnect t app tc) /\
      commands lib mid cs /\ Forall (fun c => ~ starts_role c) cs /\
      speaks lib last c /\ params = str "/" ++ name /\
      ((exists t', c = CPlay t' name /\ pl = true /\ pb = false) \/
       (exists t', c = CPublish t' name /\ pl = false /\ pb = true)) /\
      (Forall (fun r => r <> SFail 0) sends ->
       exists w bw, filter about_commands (se_out s) =
         [RWinAck w; RPeerBW bw; RChunk 128; RConnResult t] ++ flat_map answer cs ++
         match c with
         | CPlay _ _ => [RPlayStart; RSampleAccess; RStreamBegin 1]
         | CPublish t' _ => match nm_int t' with Some z => [RPublishStart z; RStreamBegin 1] | None => [] end
         | _ => []
         end).
Proof.
  intros lib n0 sends evs pl pb tc params s H.
  destruct (ph1_sound _ _ _ _ _ _ _ _ H) as (before & conn & mid & last & rest & bs & cs & t & ap & c & name & He & Hb & Hbo & Hc & Hm & Hmo & Hl & Hr & Hp & Ho).
  exists before, conn, mid, last, rest, bs, cs, t, ap, c, name.
  split; [exact He|]. split; [exact Hb|]. split; [exact Hbo|]. split; [exact Hc|]. split; [exact Hm|]. split; [exact Hmo|].
  split; [exact Hl|]. split; [exact Hp|]. split; [exact Hr|].
  intros Hs. eexists _, _. rewrite (Ho Hs). reflexivity.
Qed.
Print Assumptions rtmp_connect_one_role.

Example rtmp_connect_one_role_ex :
  exists s, pre_connect ex_amf 3073 [] [ex_cmd 6; ex_cmd 4; ex_cmd 1; ex_cmd 2; ex_cmd 1; ex_cmd 3; ex_cmd 4] =
              (CRet 0 false true (str "rtmp://h/live") (str "/a"), s) /\
    se_out s = [RWinAck 6000000; RPeerBW 5000000; RChunk 128; RConnResult one;
                RResult (mknum 0x4000000000000000 (Some 2)) 1; RPublishStart 3; RStreamBegin 1].
Proof. eexists. split; [vm_compute; reflexivity|vm_compute; reflexivity]. Qed.

(** Every other ending is an error without a role. *)
Theorem rtmp_connect_error_no_role :
  forall lib n0 sends evs c pl pb tc params s,
    pre_connect lib n0 sends evs = (CRet c pl pb tc params, s) -> c <> 0 -> pl = false /\ pb = false.
Proof. intros lib n0 sends evs c pl pb tc params s H Hc. eapply ph1_flags; eauto. Qed.
Print Assumptions rtmp_connect_error_no_role.
Example rtmp_connect_error_no_role_ex :
  (exists s, pre_connect ex_amf 3073 [] [ex_cmd 1; ex_cmd 9] = (CRet ERROR_RTMP_AMF_DECODE false false (str "rtmp://h/live") [], s)) /\
  (exists s, pre_connect ex_amf 3073 [SOk; SOk; SOk; SOk; SOk; SFail 110] [ex_cmd 1; ex_cmd 4] = (CRet 110 false false (str "rtmp://h/live") (str "/a"), s)) /\
  (exists s, pre_connect ex_amf 3073 [] [ex_cmd 1; RvFail 104 20 0] = (CRet 104 false false (str "rtmp://h/live") [], s)).
Proof. repeat split; eexists; vm_compute; reflexivity. Qed.

(** Clients that keep to the protocol get their role. *)
Theorem rtmp_connect_orderly :
  forall lib n0 before conn t app tc mid last rest c pl pb name,
    Forall (orderly lib) (before ++ conn :: mid ++ [last]) ->
    (forall ev c, In ev before -> speaks lib ev c -> ~ opens c) ->
    speaks lib conn (CConnect t app tc) ->
    (forall ev c, In ev mid -> speaks lib ev c -> ~ starts_role c) ->
    speaks lib last c ->
    ((exists t', c = CPlay t' name /\ pl = true /\ pb = false /\ nm_int t' <> None) \/
     (exists t', c = CPublish t' name /\ pl = false /\ pb = true /\ nm_int t' <> None)) ->
    0 <= n0 -> n0 + wire (before ++ conn :: mid ++ [last]) + 5000000 < 2 ^ 31 ->
    exists s, pre_connect lib n0 [] (before ++ conn :: mid ++ last :: rest) = (CRet 0 pl pb tc (str "/" ++ name), s).
Proof.
  intros lib n0 before conn t ap tc mid last rest c pl pb name Ho Hb Hc Hm Hl Hr Hn Hw.
  eapply ph1_complete; eauto.
  - destruct Hr as [(t' & H1 & H2 & H3 & _)|(t' & H1 & H2 & H3 & _)]; [left|right]; exists t'; auto.
  - destruct Hr as [(t' & -> & _ & _ & Hi)|(t' & -> & _ & _ & Hi)]; intros t0 [[= <-]|[= <-]]; exact Hi.
  - split; [reflexivity|]. split; [reflexivity|]. exact Hn.
Qed.
Print Assumptions rtmp_connect_orderly.
Example rtmp_connect_orderly_ex :
  Forall (orderly ex_amf) [ex_cmd 6; RvMsg (mkrm 1 0 0 2 [0; 0; 16; 0]) 16; ex_cmd 1; ex_cmd 2; ex_cmd 3].
Proof.
  assert (forall k c, speaks ex_amf (ex_cmd k) c -> orderly ex_amf (ex_cmd k)) as H.
  { intros k c Hc. exists (mkrm 20 0 0 3 [k]), 50. split; [reflexivity|]. split; [lia|]. split; [discriminate|]. split; [discriminate|]. intros _. left. eauto. }
  constructor; [|constructor; [|constructor; [|constructor; [|constructor; [|constructor]]]]].
  - exists (mkrm 20 0 0 3 [6]), 50. split; [reflexivity|]. split; [lia|]. split; [discriminate|]. split; [discriminate|].
    intros _. right. exists (str "_checkbw"), [ANum one; ANull]. split; [reflexivity|]. intros H0. cbn in H0. repeat destruct H0 as [H0|H0]; try discriminate; exact H0.
  - exists (mkrm 1 0 0 2 [0; 0; 16; 0]), 16. split; [reflexivity|]. split; [lia|]. split; [discriminate|]. split; [discriminate|].
    intros [E|[E|[E|E]]]; discriminate.
  - eapply H. apply rtmp_command_reading. reflexivity.
  - eapply H. apply rtmp_command_reading. reflexivity.
  - eapply H. apply rtmp_command_reading. reflexivity.
Qed.

(** C87: a connect command with a null command object reads memory that was
    never written. *)
Theorem rtmp_connect_null_object :
  forall lib n0 sends m n t more evs,
    amf_type (rm_type m) -> lib (rm_type m =? 17) (rm_body m) = Some (AStr (str "connect") :: ANum t :: ANull :: more) ->
    n0 + n < 5000000 ->
    fst (pre_connect lib n0 sends (RvMsg m n :: evs)) = CUB.
Proof.
  intros lib n0 sends m n t more evs Ht Hl Hn. unfold pre_connect. cbn [ph1].
  assert (exists s1, hk_recv (sess0 n0 sends) (RvMsg m n) = (Ok 0, s1)) as (s1 & ->).
  { cbn [hk_recv]. unfold hk_count. cbn [sess0 se_h hk_bytes]. replace (2 ^ 31 <=? n0 + n) with false by lia.
    unfold on_recv. cbn [se_h se_sends se_out]. unfold amf_type in Ht.
    unfold RT_CHUNK_SIZE, RT_CONTROL, RT_SERVER_BW, RT_CLIENT_BW.
    replace (rm_type m =? 1) with false by lia. replace (rm_type m =? 4) with false by lia.
    replace (rm_type m =? 5) with false by lia. replace (rm_type m =? 6) with false by lia.
    unfold hk_ack. cbn [se_h hk_bytes hk_next]. replace (n0 + n <? 5000000) with true by lia. eauto. }
  cbn [Z.eqb negb ev_decode]. unfold rt_decode. apply is_command_spec in Ht.
  replace (rm_type m =? RT_CHUNK_SIZE) with false by (unfold is_command, RT_CHUNK_SIZE, RT_AMF0_DATA, RT_AMF0_CMD, RT_AMF3_DATA, RT_AMF3_CMD in *; lia).
  rewrite Ht. change RT_AMF3_CMD with 17. rewrite Hl. reflexivity.
Qed.
Print Assumptions rtmp_connect_null_object.
Example rtmp_connect_null_object_ex : fst (pre_connect ex_amf 3073 [] [ex_cmd 5]) = CUB.
Proof. reflexivity. Qed.

(** C38: streaming starts with a new session object: whatever chunk size,
    windows and byte counts the connect phase ended with, streaming starts with
    the defaults. *)
Theorem rtmp_streaming_starts_afresh :
  forall lib ul n0 sends evs ctx out,
    rtmp_prepare lib ul (Some n0) sends evs = (POk ctx, out) ->
    hk_in (rc_hook ctx) = 128 /\ hk_outc (rc_hook ctx) = 128 /\ hk_bytes (rc_hook ctx) = 0 /\
    hk_cbw (rc_hook ctx) = 5000000 /\ hk_next (rc_hook ctx) = 5000000 /\
    exists used rest pl pb tc params s,
      evs = used ++ rest /\ pre_connect lib n0 sends evs = (CRet 0 pl pb tc params, s) /\
      hk_in (se_h s) = announced 1 128 used /\ rc_playing ctx = pl /\ rc_publishing ctx = pb.
Proof.
  intros lib ul n0 sends evs ctx out H. unfold rtmp_prepare in H.
  destruct (pre_connect lib n0 sends evs) as [[| |c pl pb tc params] s] eqn:Ep; try discriminate.
  destruct (c =? 0) eqn:Ec; cbn [negb] in H; [|discriminate].
  destruct (parse_url ul rq_new (tc ++ params)) as [[e|e| |] rq] eqn:Eu; try discriminate.
  destruct (e =? 0); [|discriminate]. injection H as <- <-. apply Z.eqb_eq in Ec. subst c.
  do 5 (split; [reflexivity|]). destruct (ph1_in _ _ _ _ _ _ _ _ Ep) as (used & rest & He & Hu).
  exists used, rest, pl, pb, tc, params, s. split; [exact He|]. split; [reflexivity|]. split; [exact Hu|]. split; reflexivity.
Qed.
Print Assumptions rtmp_streaming_starts_afresh.
Example rtmp_streaming_starts_afresh_ex :
  exists ctx out, rtmp_prepare ex_amf hp_url (Some 3073) [] [RvMsg (mkrm 1 0 0 2 [0; 0; 16; 0]) 16; RvMsg (mkrm 6 0 0 2 (be 4 1000 ++ [2])) 17; ex_cmd 1; ex_cmd 2; ex_cmd 3] = (POk ctx, out) /\
    rc_publishing ctx = true /\ hk_in (rc_hook ctx) = 128 /\ hk_cbw (rc_hook ctx) = 5000000.
Proof. eexists. eexists. split; [vm_compute; reflexivity|]. repeat split. Qed.

(** The claim that an announced chunk size is in force when media arrive, and
    its refutation. *)
Theorem rtmp_chunk_size_kept_refuted :
  exists lib ul n0 evs ctx out,
    url_lib_ok ul /\ rtmp_prepare lib ul (Some n0) [] evs = (POk ctx, out) /\ rc_publishing ctx = true /\
    announced 1 128 evs = 4096 /\ hk_in (rc_hook ctx) = 128.
Proof.
  exists ex_amf, hp_url, 3073, [RvMsg (mkrm 1 0 0 2 [0; 0; 16; 0]) 16; ex_cmd 1; ex_cmd 2; ex_cmd 3].
  eexists. eexists. split; [exact url_library_exists|]. split; [vm_compute; reflexivity|]. repeat split.
Qed.
Print Assumptions rtmp_chunk_size_kept_refuted.

(** C39: without pings, whatever is received, the bytes not yet acknowledged
    stay below the window, and the acknowledgements are totals the client can
    check. *)
Theorem rtmp_acks_keep_up :
  forall n0 sends evs c s,
    0 <= n0 < 5000000 -> Forall (fun r => r = SOk) sends -> Forall plain evs ->
    hk_run (sess0 n0 sends) evs = (Ok c, s) ->
    n0 + wire evs - last_ack (se_out s) < announced 6 5000000 evs /\
    subseq (acks (se_out s)) (totals n0 evs).
Proof.
  intros n0 sends evs c s Hn Hs Hp H.
  assert (kept_up (sess0 n0 sends)) as Hk.
  { unfold kept_up, last_ack. cbn. split; [lia|]. split; [lia|]. split; [lia|]. split; [lia|]. exact Hs. }
  assert (forall l s0 c0 s', hk_run s0 l = (Ok c0, s') -> c0 = 0 -> hk_cbw (se_h s') = announced 6 (hk_cbw (se_h s0)) l) as Hcbw.
  { induction l as [|ev l IH]; intros s0 c0 s' H0 Hc0; cbn [hk_run] in H0; [injection H0 as _ <-; reflexivity|].
    destruct (hk_recv s0 ev) as [[c1|e| |] s1] eqn:Er; try discriminate. apply hk_recv_fields in Er as (_ & _ & Fc & _).
    destruct (c1 =? 0) eqn:Ec; [|injection H0 as <- <-; lia].
    rewrite (IH _ _ _ H0 Hc0), Fc. change (ev :: l) with ([ev] ++ l). rewrite announced_app. reflexivity. }
  destruct (plain_run _ _ _ _ Hp Hk H) as (((Hb & Hbn) & Hc & Hnx & Hla & _) & -> & Hb2 & more & Hm & Hss).
  rewrite (Hcbw _ _ _ _ H eq_refl) in Hnx. cbn [sess0 se_h hk_bytes hk_cbw se_out acks app] in *. split; [lia|]. rewrite Hm. exact Hss.
Qed.
Print Assumptions rtmp_acks_keep_up.
Example rtmp_acks_keep_up_ex :
  let v n := RvMsg (mkrm 9 0 1 6 [0x17]) n in
  exists s, hk_run (sess0 3073 []) [v 4000000; v 3000000; v 1000000; v 5000000] = (Ok 0, s) /\
    se_out s = [RAck 7003073; RAck 13003073] /\ Forall plain [v 4000000; v 3000000].
Proof.
  cbv zeta. eexists. split; [vm_compute; reflexivity|]. split; [vm_compute; reflexivity|].
  assert (forall n, 0 <= n -> plain (RvMsg (mkrm 9 0 1 6 [0x17]) n)) as H.
  { intros n Hn. eexists _, _. split; [reflexivity|]. split; [exact Hn|]. split; [intros (m & n' & ts & more & [= <- <-] & Ht & _); discriminate|].
    split; [repeat constructor; lia|]. split; discriminate. }
  constructor; [apply H; lia|constructor; [apply H; lia|constructor]].
Qed.

(** With pings the claim fails: a ping is never a reason to acknowledge. *)
Theorem rtmp_pings_never_acked :
  forall evs s c s', Forall is_ping evs -> hk_run s evs = (Ok c, s') -> acks (se_out s') = acks (se_out s).
Proof.
  induction evs as [|ev evs IH]; intros s c s' Hp H; cbn [hk_run] in H; [injection H as _ <-; reflexivity|].
  destruct (hk_recv s ev) as [[c1|e| |] s1] eqn:Er; try discriminate.
  destruct (ping_recv _ _ _ _ (Forall_inv Hp) Er) as (Ha & _).
  destruct (c1 =? 0); [|injection H as _ <-; exact Ha]. rewrite <- Ha. eapply IH; [exact (Forall_inv_tail Hp)|exact H].
Qed.
Print Assumptions rtmp_pings_never_acked.
Example rtmp_pings_never_acked_ex : let ping := RvMsg (mkrm 4 0 0 2 [0; 6; 0; 0; 0; 1]) 3000000 in
  is_ping ping /\ exists s, hk_run (sess0 3073 []) [ping; ping; ping] = (Ok 0, s) /\ se_out s = [RPong 0; RPong 0; RPong 0].
Proof.
  cbv zeta. split; [exists (mkrm 4 0 0 2 [0; 6; 0; 0; 0; 1]), 3000000, [0; 0; 0; 1], []; repeat split|].
  eexists. split; vm_compute; reflexivity.
Qed.
Theorem rtmp_acks_keep_up_with_pings_refuted :
  exists evs s, Forall is_ping evs /\ hk_run (sess0 3073 []) evs = (Ok 0, s) /\
    3073 + wire evs - last_ack (se_out s) > announced 6 5000000 evs.
Proof.
  exists (repeat (RvMsg (mkrm 4 0 0 2 ([0; 6; 0; 0; 0; 1] ++ repeat 0 10)) 2000000) 3). eexists.
  split; [|split; [vm_compute; reflexivity|vm_compute; reflexivity]].
  assert (is_ping (RvMsg (mkrm 4 0 0 2 ([0; 6; 0; 0; 0; 1] ++ repeat 0 10)) 2000000)) as H.
  { exists (mkrm 4 0 0 2 ([0; 6; 0; 0; 0; 1] ++ repeat 0 10)), 2000000, [0; 0; 0; 1], (repeat 0 10). repeat split. }
  repeat constructor; exact H.
Qed.
Print Assumptions rtmp_acks_keep_up_with_pings_refuted.

(** C88: a ping is answered with the number 0, whatever it asked to be echoed. *)
Theorem rtmp_ping_answer :
  forall s ev c s1, is_ping ev -> hk_recv s ev = (Ok c, s1) -> se_sends s = [] -> se_out s1 = se_out s ++ [RPong 0].
Proof.
  intros s ev c s1 Hp H Hs. destruct (ping_recv _ _ _ _ Hp H) as (_ & [Ho|(_ & e & l & He)]); [exact Ho|congruence].
Qed.
Print Assumptions rtmp_ping_answer.
Example rtmp_ping_answer_ex :
  exists s, hk_recv (sess0 3073 []) (RvMsg (mkrm 4 0 0 2 [0; 6; 1; 2; 3; 4]) 18) = (Ok 0, s) /\ se_out s = [RPong 0].
Proof. eexists. split; [vm_compute; reflexivity|vm_compute; reflexivity]. Qed.
Theorem rtmp_ping_echo_refuted :
  ~ (forall s m n ts, rm_type m = 4 -> rm_body m = [0; 6] ++ be 4 ts -> 0 <= ts < 2 ^ 32 -> 0 <= n < 100 -> hk_bytes (se_h s) = 0 -> se_sends s = [] ->
       exists s1, hk_recv s (RvMsg m n) = (Ok 0, s1) /\ se_out s1 = se_out s ++ [RPong ts]).
Proof.
  intros H. specialize (H (sess0 0 []) (mkrm 4 0 0 2 ([0; 6] ++ be 4 7)) 18 7 eq_refl eq_refl ltac:(lia) ltac:(lia) eq_refl eq_refl).
  destruct H as (s1 & H1 & H2). vm_compute in H1. injection H1 as <-. vm_compute in H2. discriminate.
Qed.
Print Assumptions rtmp_ping_echo_refuted.

(** C89: the window the peer asks for changes nothing: any two receptions that
    differ only in the windows asked for end alike and send the same. *)
Theorem rtmp_peer_window_ignored :
  forall evs evs' s, Forall2 same_but_window evs evs' ->
    fst (hk_run s evs) = fst (hk_run s evs') /\ se_out (snd (hk_run s evs)) = se_out (snd (hk_run s evs')).
Proof.
  intros evs evs' s H. destruct (hk_run_sim evs evs' H s s) as (A & _ & B & _).
  { split; [reflexivity|]. split; [reflexivity|]. exists (hk_sbw (se_h s)). destruct (se_h s); reflexivity. }
  split; [exact A|exact B].
Qed.
Print Assumptions rtmp_peer_window_ignored.
(** In particular nothing is acknowledged in the first five million bytes. *)
Theorem rtmp_first_ack_late :
  forall n0 sends evs c s, Forall no_peer_bw evs -> Forall (fun ev => 0 <= wire [ev]) evs ->
    n0 + wire evs < 5000000 -> hk_run (sess0 n0 sends) evs = (Ok c, s) -> acks (se_out s) = [].
Proof. intros n0 sends evs c s Hn Hw Hb H. apply (early_run _ _ _ _ Hn Hw) in H; [exact H|reflexivity|exact Hb]. Qed.
Print Assumptions rtmp_first_ack_late.
Example rtmp_first_ack_late_ex :
  let win w := RvMsg (mkrm 5 0 0 2 (be 4 w)) 16 in
  same_but_window (win 1000) (win 100000) /\
  exists s, hk_run (sess0 3073 []) [win 1000; RvMsg (mkrm 9 0 1 6 []) 4000000] = (Ok 0, s) /\ se_out s = [].
Proof.
  cbv zeta. split; [right; eexists _, _, _; split; [reflexivity|split; [reflexivity|]]; repeat split; cbn; lia|].
  eexists. split; vm_compute; reflexivity.
Qed.

(** C90: a window or bandwidth message of fewer than four bytes reads outside
    its body, already before the client has connected. *)
Theorem rtmp_short_window_message :
  forall lib n0 sends m n evs,
    rm_type m = 5 \/ rm_type m = 6 -> zlen (rm_body m) < 4 ->
    fst (pre_connect lib n0 sends (RvMsg m n :: evs)) = CUB.
Proof.
  intros lib n0 sends m n evs Ht Hl. unfold pre_connect. cbn [ph1 hk_recv]. unfold hk_count.
  destruct (2 ^ 31 <=? _); [reflexivity|]. unfold on_recv. cbn [se_h se_sends se_out].
  replace (zlen (rm_body m) <? 4) with true by lia.
  destruct Ht as [-> | ->]; reflexivity.
Qed.
Print Assumptions rtmp_short_window_message.
Example rtmp_short_window_message_ex : fst (pre_connect ex_amf 3073 [] [RvMsg (mkrm 6 0 0 2 [0; 0; 1]) 15; ex_cmd 1]) = CUB.
Proof. reflexivity. Qed.

(** C90: and so at any later time, in every state of the session. *)
Theorem rtmp_short_window_any : forall s m n,
  rm_type m = 5 \/ rm_type m = 6 -> zlen (rm_body m) < 4 -> fst (hk_recv s (RvMsg m n)) = UB.
Proof.
  intros s m n Ht Hl. cbn [hk_recv]. unfold hk_count. destruct (2 ^ 31 <=? _); [reflexivity|].
  unfold on_recv. cbn [se_h se_sends se_out]. replace (zlen (rm_body m) <? 4) with true by lia.
  destruct Ht as [-> | ->]; reflexivity.
Qed.
Print Assumptions rtmp_short_window_any.
Example rtmp_short_window_any_ex :
  exists s, hk_run (sess0 3073 []) [RvMsg (mkrm 9 0 1 6 []) 100] = (Ok 0, s) /\ fst (hk_recv s (RvMsg (mkrm 5 0 0 2 []) 12)) = UB.
Proof. eexists. split; [vm_compute; reflexivity|reflexivity]. Qed.

(** C91: the byte counter is 32 bits wide: no session survives 2 GiB, and the
    acknowledgement already overflows one window earlier. *)
Theorem rtmp_two_gib :
  forall n0 sends evs s, 0 <= n0 < 2 ^ 31 -> hk_run (sess0 n0 sends) evs = (Ok 0, s) -> n0 + wire evs < 2 ^ 31.
Proof. intros n0 sends evs s Hn H. destruct (run_bytes _ _ _ H) as (A & B); cbn in *; lia. Qed.
Print Assumptions rtmp_two_gib.
Example rtmp_two_gib_ex :
  exists s, hk_run (sess0 3073 []) [RvMsg (mkrm 9 0 1 6 []) 5000000; RvMsg (mkrm 8 0 1 4 []) 100] = (Ok 0, s) /\
    se_out s = [RAck 5003073] /\ fst (hk_run s [RvMsg (mkrm 9 0 1 6 []) (2 ^ 31 - 5003173)]) = UB.
Proof. eexists. split; [vm_compute; reflexivity|]. split; vm_compute; reflexivity. Qed.
Theorem rtmp_ack_overflow :
  forall s m n, rm_type m = 8 \/ rm_type m = 9 ->
    hk_next (se_h s) <= hk_bytes (se_h s) + n < 2 ^ 31 -> 2 ^ 31 <= hk_bytes (se_h s) + n + hk_cbw (se_h s) ->
    fst (hk_recv s (RvMsg m n)) = UB.
Proof.
  intros s m n Ht Hn Ho. cbn [hk_recv]. unfold hk_count. replace (2 ^ 31 <=? hk_bytes (se_h s) + n) with false by lia.
  unfold on_recv. cbn [se_h se_sends se_out]. unfold hk_ack. cbn [se_h hk_bytes hk_next hk_cbw].
  replace (_ <? hk_next (se_h s)) with false by lia. replace ((_ <? _) || (2 ^ 31 <=? _)) with true by lia.
  destruct Ht as [-> | ->]; reflexivity.
Qed.
Print Assumptions rtmp_ack_overflow.
Example rtmp_ack_overflow_ex :
  fst (hk_recv (mkse (mkhk 128 128 6000000 5000000 (2 ^ 31 - 3000000) (2 ^ 31 - 3000100)) [] []) (RvMsg (mkrm 9 0 1 6 []) 200)) = UB.
Proof. reflexivity. Qed.

(** C92: when librtmp gives up for a reason of its own (not the socket's), the
    failure counts as a message: the connection ends in a null dereference if
    the packet at hand was a command, and otherwise just goes on. *)
Theorem rtmp_library_failure_unnoticed :
  forall lib n0 sends t size evs,
    (amf_type t -> 0 < size -> fst (pre_connect lib n0 sends (RvFail 0 t size :: evs)) = CUB) /\
    (~ amf_type t -> t <> 1 -> pre_connect lib n0 sends (RvFail 0 t size :: evs) = pre_connect lib n0 sends evs).
Proof.
  intros lib n0 sends t size evs. unfold pre_connect. cbn [ph1 hk_recv ev_decode Z.eqb negb]. unfold rt_decode. split.
  - intros Ht Hs. apply is_command_spec in Ht.
    replace (t =? RT_CHUNK_SIZE) with false by (unfold is_command, RT_CHUNK_SIZE, RT_AMF0_DATA, RT_AMF0_CMD, RT_AMF3_DATA, RT_AMF3_CMD in *; lia).
    rewrite Ht. replace (size =? 0) with false by lia. reflexivity.
  - intros Ht H1. replace (t =? RT_CHUNK_SIZE) with false by (unfold RT_CHUNK_SIZE; lia).
    destruct (is_command t) eqn:E; [exfalso; apply Ht; apply is_command_spec; exact E|]. reflexivity.
Qed.
Print Assumptions rtmp_library_failure_unnoticed.
Example rtmp_library_failure_ex :
  fst (pre_connect ex_amf 3073 [] [ex_cmd 1; RvFail 0 20 1]) = CUB /\
  (exists s, pre_connect ex_amf 3073 [] [ex_cmd 1; RvFail 0 9 1; ex_cmd 3] = (CRet 0 false true (str "rtmp://h/live") (str "/a"), s)).
Proof. split; [vm_compute; reflexivity|]. eexists. vm_compute. reflexivity. Qed.

(** C93: the requested stream: with a plain tcUrl its path ends in the stream
    name; with a tcUrl that has a query the name goes into the query and the
    stream's key does not contain it. *)
Theorem rtmp_request_url :
  forall lib ul n0 sends evs schema host port p query pl pb name s,
    url_lib_ok ul -> schema <> str "file" ->
    url_wf schema host port (Some p) query -> Forall path_c name ->
    pre_connect lib n0 sends evs = (CRet 0 pl pb (url_text schema host port (Some p) query) (str "/" ++ name), s) ->
    exists ctx, rtmp_prepare lib ul (Some n0) sends evs = (POk ctx, se_out s) /\
      rc_playing ctx = pl /\ rc_publishing ctx = pb /\ rq_host (rc_req ctx) = host /\
      match query with
      | None => rq_path (rc_req ctx) = p ++ str "/" ++ name /\ rq_params (rc_req ctx) = []
      | Some q => rq_path (rc_req ctx) = p /\ rq_params (rc_req ctx) = q ++ str "/" ++ name
      end.
Proof.
  intros lib ul n0 sends evs schema host port p query pl pb name s Hul Hf Hwf Hname H.
  unfold rtmp_prepare. rewrite H. cbn [Z.eqb negb].
  assert (path_c 47) as H47 by (unfold path_c; lia).
  destruct query as [q|].
  - assert (url_wf schema host port (Some p) (Some (q ++ str "/" ++ name))) as Hwf'.
    { destruct Hwf as [W1 W2 W3 W4 W5]. constructor; try assumption. split; [destruct W5 as (W5 & _); destruct q; [congruence|discriminate]|].
      apply Forall_app. split; [apply W5|]. constructor; assumption. }
    assert (url_text schema host port (Some p) (Some q) ++ str "/" ++ name = url_text schema host port (Some p) (Some (q ++ str "/" ++ name))) as ->.
    { unfold url_text. rewrite <- !app_assoc. reflexivity. }
    destruct (url_parts_exact ul _ _ _ _ _ Hul Hwf' Hf) as (r & Hr & _ & Hh & _ & _ & Hp & Hq & _).
    unfold url_from in Hr. rewrite Hr. cbn [Z.eqb]. eexists. split; [reflexivity|]. cbn. auto 6.
  - assert (url_wf schema host port (Some (p ++ str "/" ++ name)) None) as Hwf'.
    { destruct Hwf as [W1 W2 W3 (p' & -> & W4) W5]. constructor; [exact W1|exact W2|exact W3| |exact I].
      exists (p' ++ str "/" ++ name). split; [reflexivity|]. apply Forall_app. split; [exact W4|]. constructor; assumption. }
    assert (url_text schema host port (Some p) None ++ str "/" ++ name = url_text schema host port (Some (p ++ str "/" ++ name)) None) as ->.
    { unfold url_text. rewrite !app_nil_r, <- !app_assoc. reflexivity. }
    destruct (url_parts_exact ul _ _ _ _ _ Hul Hwf' Hf) as (r & Hr & _ & Hh & _ & _ & Hp & Hq & _).
    unfold url_from in Hr. rewrite Hr. cbn [Z.eqb]. eexists. split; [reflexivity|]. cbn. auto 6.
Qed.
Print Assumptions rtmp_request_url.
Example rtmp_request_url_ex :
  exists c o, rtmp_prepare ex_amf hp_url (Some 3073) [] [ex_cmd 1; ex_cmd 2; ex_cmd 3] = (POk c, o) /\
    rc_publishing c = true /\ rq_host (rc_req c) = str "h" /\ rq_path (rc_req c) = str "/live/a" /\ rq_params (rc_req c) = [].
Proof. do 2 eexists. split; [vm_compute; reflexivity|]. repeat split. Qed.
(** Two clients that publish different streams under a tcUrl with a query
    collide on one stream key. *)
Theorem rtmp_streams_collide :
  forall lib ul n0 evs evs' schema host port p q pl pb pl' pb' name name' s s',
    url_lib_ok ul -> schema <> str "file" -> url_wf schema host port (Some p) (Some q) -> without 46 p ->
    Forall path_c name -> Forall path_c name' ->
    pre_connect lib n0 [] evs = (CRet 0 pl pb (url_text schema host port (Some p) (Some q)) (str "/" ++ name), s) ->
    pre_connect lib n0 [] evs' = (CRet 0 pl' pb' (url_text schema host port (Some p) (Some q)) (str "/" ++ name'), s') ->
    exists c c', rtmp_prepare lib ul (Some n0) [] evs = (POk c, se_out s) /\ rtmp_prepare lib ul (Some n0) [] evs' = (POk c', se_out s') /\
      cache_key (rc_req c) = cache_key (rc_req c').
Proof.
  intros lib ul n0 evs evs' schema host port p q pl pb pl' pb' name name' s s' Hul Hf Hwf Hdot Hn Hn' H H'.
  assert (forall e pl pb nm s, Forall path_c nm -> pre_connect lib n0 [] e = (CRet 0 pl pb (url_text schema host port (Some p) (Some q)) (str "/" ++ nm), s) ->
    exists c, rtmp_prepare lib ul (Some n0) [] e = (POk c, se_out s) /\ cache_key (rc_req c) = host ++ p) as Hone.
  { intros e pl0 pb0 nm s0 Hnm He. unfold rtmp_prepare. rewrite He. cbn [Z.eqb negb].
    assert (url_wf schema host port (Some p) (Some (q ++ str "/" ++ nm))) as Hwf'.
    { destruct Hwf as [W1 W2 W3 W4 W5]. constructor; try assumption. split; [destruct W5 as (W5 & _); destruct q; [congruence|discriminate]|].
      apply Forall_app. split; [apply W5|]. constructor; [change (path_c 47); unfold path_c; lia|assumption]. }
    assert (url_text schema host port (Some p) (Some q) ++ str "/" ++ nm = url_text schema host port (Some p) (Some (q ++ str "/" ++ nm))) as ->.
    { unfold url_text. rewrite <- !app_assoc. reflexivity. }
    destruct (stream_key_without_ext ul _ _ _ _ _ Hul Hf Hwf' Hdot) as (r & Hr & Hk).
    unfold url_from in Hr. rewrite Hr. cbn [Z.eqb]. eexists. split; [reflexivity|]. exact Hk. }
  destruct (Hone _ _ _ _ _ Hn H) as (c & Hc & Kc). destruct (Hone _ _ _ _ _ Hn' H') as (c' & Hc' & Kc').
  exists c, c'. split; [exact Hc|]. split; [exact Hc'|]. congruence.
Qed.
Print Assumptions rtmp_streams_collide.
Example rtmp_streams_collide_ex :
  exists c c' o o', rtmp_prepare ex_amf hp_url (Some 3073) [] [ex_cmd 7; ex_cmd 3] = (POk c, o) /\
    rtmp_prepare ex_amf hp_url (Some 3073) [] [ex_cmd 7; ex_cmd 8] = (POk c', o') /\
    cache_key (rc_req c) = str "h/live" /\ cache_key (rc_req c') = str "h/live" /\
    rq_params (rc_req c) = str "vhost=x/a" /\ rq_params (rc_req c') = str "vhost=x/b".
Proof. do 4 eexists. split; [vm_compute; reflexivity|]. split; [vm_compute; reflexivity|]. repeat split. Qed.

(** C94: any chunk size is accepted, zero and negative ones included. *)
Theorem rtmp_any_chunk_size :
  forall s b n, zlen b = 4 -> bytes b -> 0 <= hk_bytes (se_h s) + n < hk_next (se_h s) -> hk_next (se_h s) < 2 ^ 31 ->
    exists s1, hk_recv s (RvMsg (mkrm 1 0 0 2 b) n) = (Ok 0, s1) /\ hk_in (se_h s1) = s32 (bev b).
Proof.
  intros s b n Hl Hb Hn Hx. cbn [hk_recv]. unfold hk_count. replace (2 ^ 31 <=? _) with false by lia.
  unfold on_recv. cbn [rm_type rm_body se_h se_sends se_out]. change (1 =? RT_CHUNK_SIZE) with true. cbv iota.
  replace (4 <=? zlen b) with true by lia. unfold hk_ack. cbn [se_h hk_bytes hk_next]. replace (_ <? _) with true by lia.
  eexists. split; [reflexivity|]. cbn [se_h hk_in]. unfold be32s. rewrite take_all by lia. reflexivity.
Qed.
Print Assumptions rtmp_any_chunk_size.
Example rtmp_any_chunk_size_ex :
  (exists s1, hk_recv (sess0 3073 []) (RvMsg (mkrm 1 0 0 2 [0; 0; 0; 0]) 16) = (Ok 0, s1) /\ hk_in (se_h s1) = 0) /\
  (exists s1, hk_recv (sess0 3073 []) (RvMsg (mkrm 1 0 0 2 [0xff; 0xff; 0xff; 0xff]) 16) = (Ok 0, s1) /\ hk_in (se_h s1) = -1).
Proof. split; eexists; split; vm_compute; reflexivity. Qed.
