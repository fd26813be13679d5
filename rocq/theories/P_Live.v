(** Properties C10 and C12: viewers and sources of live streams. *)
From Verif Require Import Base M_Packet M_Cache M_Live S_Cache S_Live L_Live L_Live2 L_Live3.

(** C10.  A viewer that joined (at the point [pre] of the history) and has not
    left has taken or queued exactly the snapshot of its source at that time
    and every packet of that source since, in order. *)
Theorem viewer_gets_snapshot_then_everything : forall shape os s post pre v a name,
  keeps_order shape -> env_ok shape live0 os ->
  play_events shape live0 [] os = (s, post ++ (OPlay v a name, Done) :: pre) ->
  ~ In (OLeave v, Done) post ->
  exists i k x, owner name pre = Some (i, k) /\ l_views s v = Some x /\ v_alive x = true /\
    given v post ++ v_queue x = snapshot k (puts i k pre) ++ puts i k post.
Proof. exact viewer_stream. Qed.
Print Assumptions viewer_gets_snapshot_then_everything.

(** A plain right-leaning set shape for the examples. *)
Fixpoint spine (l : list entry) : tr := match l with [] => Lf | e :: r => Nd Lf e (spine r) end.
Lemma spine_order : keeps_order (fun _ => spine).
Proof. intros n l. induction l as [|e r IH]; cbn; [reflexivity|]. rewrite IH. reflexivity. Qed.

Definition exk (n : Z) := mkpkt 1 AV_STREAM_TYPE_VIDEO 1 0 0 0x17 CODEC_H264 [n].
Definition exp_ (n : Z) := mkpkt 1 AV_STREAM_TYPE_VIDEO 1 0 0 0x27 CODEC_H264 [n].
Definition ex_os : list op :=
  [OPublish 0 (str "h/a"); OPut 0 0 (exk 1); OPut 0 0 (exp_ 2); OPlay 0 50 (str "h/a");
   OSrtPublish 1 (str "h/b"); OPut 1 0 (exk 8); OPlay 1 20 (str "h/a"); OPut 0 0 (exk 3); OPoll 0;
   OPlay 2 70 (str "h/a"); OLeave 1; OPut 0 0 (exp_ 4)].
Example ex_env : env_ok (fun _ => spine) live0 ex_os.
Proof. apply (env_b_ok0 3). vm_compute. reflexivity. Qed.
(** Viewer 0: got 1, 2, 3 and has 4 queued; viewer 2 has 3, 4. *)
Example ex_run :
  let '(s, h) := play_events (fun _ => spine) live0 [] ex_os in
  given 0 h = [exk 1; exp_ 2; exk 3] /\
  option_map v_queue (l_views s 0) = Some [exp_ 4] /\
  option_map v_queue (l_views s 2) = Some [exk 3; exp_ 4] /\
  In (OLeave 1, Done) h.
Proof. vm_compute. auto 10. Qed.

(** The subscriber set alone does not give this: if some viewer object ends
    without unsubscribing first, another viewer's leaving can silently
    unsubscribe a third one.  (Red-black tree of addresses 20, 10, 40, 30.) *)
Definition rb4 (l : list entry) : tr :=
  match l with
  | [a; b; c; d] => Nd (Nd Lf a Lf) b (Nd (Nd Lf c Lf) d Lf)
  | _ => spine l
  end.
Lemma rb4_order : keeps_order (fun _ => rb4).
Proof.
  intros n l. unfold rb4. destruct l as [|a [|b [|c [|d [|e r]]]]]; try reflexivity.
  apply (spine_order n (a :: b :: c :: d :: e :: r)).
Qed.
Definition vanish_os : list op :=
  [OPublish 0 (str "h/a"); OPlay 1 20 (str "h/a"); OPlay 2 10 (str "h/a"); OPlay 3 40 (str "h/a");
   OPlay 4 30 (str "h/a"); OVanish 3; OLeave 1; OPut 0 0 (exk 1)].
Theorem viewer_kept_after_unclean_exit_refuted :
  exists shape os s h, keeps_order shape /\ play_events shape live0 [] os = (s, h) /\
    (forall x, ~ In (OLeave 4, x) h) /\ (forall x, ~ In (OVanish 4, x) h) /\
    owner (str "h/a") h = Some (0%nat, 0%nat) /\ puts 0 0 h = [exk 1] /\
    In (OPlay 4 30 (str "h/a"), Done) h /\
    exists x, l_views s 4 = Some x /\ v_alive x = true /\ v_got x ++ v_queue x = [].
Proof.
  exists (fun _ => rb4), vanish_os.
  eexists _, _. split; [exact rb4_order|]. split; [vm_compute; reflexivity|].
  split; [intros x [H|[H|[H|[H|[H|[H|[H|[H|[]]]]]]]]]; discriminate H|].
  split; [intros x [H|[H|[H|[H|[H|[H|[H|[H|[]]]]]]]]]; discriminate H|].
  split; [reflexivity|]. split; [reflexivity|]. split; [cbn; auto 10|].
  eexists. split; [reflexivity|]. split; reflexivity.
Qed.
Print Assumptions viewer_kept_after_unclean_exit_refuted.

(** C12.  Without edge pulls, a name never has two active sources, and players
    are attached to the active source. *)
Theorem at_most_one_source : forall shape os s h,
  keeps_order shape -> env_ok shape live0 os -> Forall no_edge_plain os ->
  play_events shape live0 [] os = (s, h) ->
  (forall n i j k m, holds i n h = Some k -> holds j n h = Some m -> i = j) /\
  (forall n i k, owner n h = Some (i, k) <-> holds i n h = Some k).
Proof. exact one_source. Qed.
Print Assumptions at_most_one_source.

(** A publisher is accepted iff the name is free, a player iff it is taken. *)
Theorem publish_and_play_outcomes : forall shape os s post o x pre,
  keeps_order shape -> env_ok shape live0 os -> Forall no_edge_plain os ->
  play_events shape live0 [] os = (s, post ++ (o, x) :: pre) ->
  match o, x with
  | OPublish _ n, Done | OSrtPublish _ n, Done => forall j, holds j n pre = None
  | OPublish _ n, Refused c => c = ERROR_HTTP_HAS_SOURCE /\ exists j k, holds j n pre = Some k
  | OSrtPublish _ n, Refused c => c = ERROR_RTMP_HAS_SOURCE /\ exists j k, holds j n pre = Some k
  | OPlay _ _ n, Done => exists j k, holds j n pre = Some k
  | OPlay _ _ n, Refused c => c = ERROR_STREAM_SOURCE_NOT_EXITS /\ forall j, holds j n pre = None
  | _, _ => True
  end.
Proof. exact events_outcomes. Qed.
Print Assumptions publish_and_play_outcomes.

(** A refused attempt changes nothing. *)
Theorem refused_attempt_is_harmless : forall shape s o s' c, step shape s o = (s', Refused c) -> s' = s.
Proof. exact refused_same. Qed.
Print Assumptions refused_attempt_is_harmless.

Definition ex_pub : list op :=
  [OPublish 0 (str "h/a"); OPublish 1 (str "h/a"); OSrtPublish 2 (str "h/a"); OPlay 0 5 (str "h/b");
   OPlay 1 6 (str "h/a"); OEnd 0; OSrtPublish 3 (str "h/a"); OPlay 2 7 (str "ts://h/a")].
Example ex_pub_env : env_ok (fun _ => spine) live0 ex_pub /\ Forall no_edge_plain ex_pub.
Proof.
  split.
  - apply (env_b_ok0 3). vm_compute. reflexivity.
  - unfold ex_pub. repeat constructor; intros n E; discriminate E.
Qed.
Example ex_pub_run : map snd (snd (play_events (fun _ => spine) live0 [] ex_pub)) =
  [Done; Done; Done; Done; Refused 3005; Refused 1911; Refused 1709; Done].
Proof. reflexivity. Qed.

(** With edge pulls it fails: an edge that connects while a publisher has taken
    the name replaces the publisher's stream, and when the edge ends the name is
    free although the publisher is still sending: players are refused and a
    second publisher is accepted. *)
Definition edge_os : list op :=
  [OEdgeStart 0 (str "h/a"); OPublish 1 (str "h/a"); OEdgeOpen 0; OPlay 0 5 (str "h/a");
   OPut 1 0 (exk 1); OEnd 0; OPlay 1 6 (str "h/a"); OPublish 2 (str "h/a")].
Theorem single_source_with_edge_refuted :
  exists shape os s h, keeps_order shape /\ env_ok shape live0 os /\ play_events shape live0 [] os = (s, h) /\
    holds 1 (str "h/a") h = Some 0%nat /\ holds 2 (str "h/a") h = Some 0%nat /\
    (exists pre post, h = post ++ (OPlay 1 6 (str "h/a"), Refused ERROR_STREAM_SOURCE_NOT_EXITS) :: pre /\
                      holds 1 (str "h/a") pre = Some 0%nat) /\
    exists x, l_views s 0 = Some x /\ v_got x ++ v_queue x = [].
Proof.
  exists (fun _ => spine), edge_os. eexists _, _. split; [exact spine_order|]. split.
  { apply (env_b_ok0 2). vm_compute. reflexivity. }
  split; [vm_compute; reflexivity|]. split; [reflexivity|]. split; [reflexivity|].
  split; [|eexists; split; reflexivity].
  eexists _, [_]. split; [reflexivity|]. reflexivity.
Qed.
Print Assumptions single_source_with_edge_refuted.
