(** C246: how an RTMP session follows its client: message by message, until it ends. *)
From Verif Require Import Base M_Text M_Packet M_Rtmp M_Conf M_Url M_Host M_RtmpSess S_RtmpSess L_RtmpSess P_RtmpSess M_Stream M_RtmpRelay S_RtmpRelay P_RtmpRelay.

(** C246: connecting.  Once the phase has ended, nothing the client sends changes how; and
    when the connection breaks before, it ends with the error of the connection, without
    a role and without another message to the client. *)
Theorem rtmp_connect_final : forall lib n0 sends pre post, fst (pre_connect lib n0 sends pre) <> CWait ->
  pre_connect lib n0 sends (pre ++ post) = pre_connect lib n0 sends pre.
Proof.
  intros lib n0 sends pre post. unfold pre_connect. generalize (sess0 n0 sends).
  assert (A : forall pre s tc, fst (ph2 lib s tc pre) <> CWait -> ph2 lib s tc (pre ++ post) = ph2 lib s tc pre).
  { clear. induction pre as [|ev l IH]; intros s tc H; [exfalso; apply H; reflexivity|]. cbn [ph2 app] in *.
    destruct (hk_recv s ev) as [[c|c| |] s1]; try reflexivity. destruct (negb (c =? 0)); [reflexivity|].
    destruct (ev_decode lib ev) as [[[]|]|e| |]; try reflexivity; try (apply IH; exact H);
      try (match goal with |- context [send_packet ?a ?b] => destruct (send_packet a b) as [c2 s2]; destruct (c2 =? 0); [apply IH; exact H|reflexivity] end). }
  induction pre as [|ev l IH]; intros s H; [exfalso; apply H; reflexivity|]. cbn [ph1 app] in *.
  destruct (hk_recv s ev) as [[c|c| |] s1]; try reflexivity. destruct (negb (c =? 0)); [reflexivity|].
  destruct (ev_decode lib ev) as [[[]|]|e| |]; try reflexivity; try (apply IH; exact H).
  destruct (send_list s1 _) as [c2 s2]. destruct (c2 =? 0); [apply A; exact H|reflexivity].
Qed.
Print Assumptions rtmp_connect_final.
Theorem rtmp_connect_broken : forall lib n0 sends pre c t size post s, c <> 0 -> pre_connect lib n0 sends pre = (CWait, s) ->
  exists tc, pre_connect lib n0 sends (pre ++ RvFail c t size :: post) = (CRet c false false tc [], s).
Proof.
  intros lib n0 sends pre c t size post s Hc. unfold pre_connect. generalize (sess0 n0 sends). assert (E : negb (c =? 0) = true) by lia.
  assert (A : forall pre s0 tc, ph2 lib s0 tc pre = (CWait, s) -> exists tc', ph2 lib s0 tc (pre ++ RvFail c t size :: post) = (CRet c false false tc' [], s)).
  { clear - E. induction pre as [|ev l IH]; intros s0 tc H; cbn [ph2 app] in *.
    - injection H as ->. cbn [hk_recv]. rewrite E. eauto.
    - destruct (hk_recv s0 ev) as [[c1|c1| |] s1]; try discriminate H. destruct (negb (c1 =? 0)); [discriminate H|].
      destruct (ev_decode lib ev) as [[[]|]|e| |]; try discriminate H; try (apply IH; exact H);
        try (match type of H with context [send_packet ?a ?b] => destruct (send_packet a b) as [c2 s2]; destruct (c2 =? 0); [apply IH; exact H|discriminate H] end);
        destruct (nm_int _); try discriminate H; destruct (send_list s1 _) as [c2 s2]; discriminate H. }
  induction pre as [|ev l IH]; intros s0 H; cbn [ph1 app] in *.
  - injection H as ->. cbn [hk_recv]. rewrite E. eauto.
  - destruct (hk_recv s0 ev) as [[c1|c1| |] s1]; try discriminate H. destruct (negb (c1 =? 0)); [discriminate H|].
    destruct (ev_decode lib ev) as [[[]|]|e| |]; try discriminate H; try (apply IH; exact H).
    destruct (send_list s1 _) as [c2 s2]. destruct (c2 =? 0); [apply A; exact H|discriminate H].
Qed.
Print Assumptions rtmp_connect_broken.

(** C246: publishing.  What is published for the messages so far stays; the rest of the
    session goes on from there; a session that has ended publishes nothing more; and a
    connection that breaks ends it with its error. *)
Theorem rtmp_publish_stepwise : forall s pre post ps x s1, rtmp_decode s pre = (ps, x, s1) ->
  match x with
  | DWait => let '(qs, y, s2) := rtmp_decode s1 post in rtmp_decode s (pre ++ post) = (ps ++ qs, y, s2)
  | _ => rtmp_decode s (pre ++ post) = (ps, x, s1)
  end.
Proof.
  intros s pre post. revert s. induction pre as [|ev l IH]; intros s ps x s1 H; cbn [rtmp_decode app] in *.
  - injection H as <- <- <-. destruct (rtmp_decode s post) as [[qs y] s2]. reflexivity.
  - destruct (hk_recv s ev) as [[c|c| |] s2]; try (injection H as <- <- <-; reflexivity). destruct (negb (c =? 0)); [injection H as <- <- <-; reflexivity|].
    destruct ev as [m n|c1 t sz]; [|apply IH; exact H]. destruct (rtmp_demux_msg m) as [[p|c2| |]|]; try (injection H as <- <- <-; reflexivity); [|apply IH; exact H].
    specialize (IH s2). destruct (rtmp_decode s2 l) as [[ps0 x0] s3]. injection H as <- <- <-. specialize (IH ps0 x0 s3 eq_refl).
    destruct x0; [|rewrite IH; reflexivity|rewrite IH; reflexivity]. destruct (rtmp_decode s3 post) as [[qs y] s4]. rewrite IH. reflexivity.
Qed.
Print Assumptions rtmp_publish_stepwise.
Theorem rtmp_publish_broken : forall s pre c t size post ps s1, c <> 0 -> rtmp_decode s pre = (ps, DWait, s1) ->
  rtmp_decode s (pre ++ RvFail c t size :: post) = (ps, DEnd c, s1).
Proof.
  intros s pre c t size post ps s1 Hc H. pose proof (rtmp_publish_stepwise s pre (RvFail c t size :: post) ps DWait s1 H) as A. cbn [rtmp_decode hk_recv] in A.
  replace (negb (c =? 0)) with true in A by (symmetry; lia). cbn iota in A. rewrite app_nil_r in A. exact A.
Qed.
Print Assumptions rtmp_publish_broken.

(** A publisher whose connection breaks between two messages; one that breaks while it
    connects; and one that has already been refused. *)
Example rtmp_end_cases :
  (exists s s1 ps, rtmp_decode s [exr_ev exr_meta; exr_ev (exr_v 0 7)] = (ps, DWait, s1) /\ map p_data ps = [[2; 0; 0]; [7]] /\
     rtmp_decode s [exr_ev exr_meta; exr_ev (exr_v 0 7); RvFail (-104) 0 0; exr_ev (exr_a 20 8)] = (ps, DEnd (-104), s1)) /\
  (exists s, pre_connect ex_amf 3073 [] [ex_cmd 1] = (CWait, s) /\ pre_connect ex_amf 3073 [] [ex_cmd 1; RvFail 104 20 0; ex_cmd 3] = (CRet 104 false false (str "rtmp://h/live") [], s)) /\
  fst (pre_connect ex_amf 3073 [] [ex_cmd 1; ex_cmd 9]) = CRet ERROR_RTMP_AMF_DECODE false false (str "rtmp://h/live") [].
Proof.
  split; [exists (sess0 3073 []); do 2 eexists; split; [vm_compute; reflexivity|]; split; vm_compute; reflexivity|].
  split; [eexists; split; vm_compute; reflexivity|vm_compute; reflexivity].
Qed.
