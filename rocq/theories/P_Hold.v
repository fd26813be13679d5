(** How much the server holds for a viewer that does not read and for viewers
    yet to come, and when a stream name is free. *)
From Verif Require Import Base M_Packet M_Cache M_Live S_Cache S_Live S_Hold L_Cache L_LiveSet L_Live L_Live2 L_Hold P_Live.

(** ** C211 *)

(** Whatever the viewers do, what a source publishes is accepted, and all of it
    waits for a viewer that does not read. *)
Theorem publisher_never_held_back : forall shape os s post pre v a name i k n ps,
  keeps_order shape -> env_ok shape live0 os ->
  play_events shape live0 [] os = (s, post ++ (OPlay v a name, Done) :: pre) ->
  ~ In (OLeave v, Done) post -> owner name pre = Some (i, k) ->
  holds i n (post ++ (OPlay v a name, Done) :: pre) = Some k ->
  exists x s' x', l_views s v = Some x /\
    play_events shape live0 [] (os ++ map (OPut i k) ps) = (s', done_puts i k ps ++ post ++ (OPlay v a name, Done) :: pre) /\
    l_views s' v = Some x' /\ v_alive x' = true /\ v_queue x' = v_queue x ++ ps.
Proof. exact stalled_viewer. Qed.
Print Assumptions publisher_never_held_back.

(** So nothing bounds what waits for one viewer. *)
Theorem waiting_packets_bounded_refuted : forall N : nat,
  exists shape os s h x, keeps_order shape /\ env_ok shape live0 os /\ play_events shape live0 [] os = (s, h) /\
    l_views s 0 = Some x /\ v_alive x = true /\ (N <= length (v_queue x))%nat.
Proof.
  intros N.
  pose (os := [OPublish 0 (str "h/a"); OPlay 0 50 (str "h/a")]).
  destruct (stalled_viewer (fun _ => spine) os (fst (play_events (fun _ => spine) live0 [] os)) []
              [(OPublish 0 (str "h/a"), Done)] 0 50 (str "h/a") 0 0 (str "h/a") (repeat (exk 1) N))
    as (x & s' & x' & _ & R & Ev & Al & Q).
  - exact spine_order.
  - apply (env_b_ok0 2). vm_compute. reflexivity.
  - vm_compute. reflexivity.
  - intros [].
  - reflexivity.
  - reflexivity.
  - exists (fun _ => spine), (os ++ map (OPut 0 0) (repeat (exk 1) N)), s'. eexists _, x'.
    split; [exact spine_order|]. split.
    { apply env_ok_join; [apply (env_b_ok0 2); vm_compute; reflexivity|apply env_ok_puts]. }
    split; [exact R|]. split; [exact Ev|]. split; [exact Al|].
    rewrite Q, app_length, repeat_length. lia.
Qed.
Print Assumptions waiting_packets_bounded_refuted.

(** A viewer that joined in the middle of a stream and left one packet unread. *)
Definition ex_stall : list op :=
  [OPublish 0 (str "h/a"); OPut 0 0 (exk 1); OPlay 0 50 (str "h/a"); OPoll 0; OPut 0 0 (exp_ 2)].
Example ex_stall_case :
  env_ok (fun _ => spine) live0 ex_stall /\
  snd (play_events (fun _ => spine) live0 [] ex_stall) =
    [(OPut 0 0 (exp_ 2), Done); (OPoll 0, Given [exk 1])] ++ (OPlay 0 50 (str "h/a"), Done) ::
    [(OPut 0 0 (exk 1), Done); (OPublish 0 (str "h/a"), Done)] /\
  owner (str "h/a") [(OPut 0 0 (exk 1), Done); (OPublish 0 (str "h/a"), Done)] = Some (0%nat, 0%nat) /\
  holds 0 (str "h/a") (snd (play_events (fun _ => spine) live0 [] ex_stall)) = Some 0%nat /\
  option_map v_queue (l_views (fst (play_events (fun _ => spine) live0 [] ex_stall)) 0) = Some [exp_ 2] /\
  option_map v_queue (l_views (fst (play_events (fun _ => spine) live0 [] (ex_stall ++ map (OPut 0 0) [exk 3; exp_ 4]))) 0)
    = Some [exp_ 2; exk 3; exp_ 4].
Proof.
  split; [apply (env_b_ok0 2); vm_compute; reflexivity|]. repeat split; vm_compute; reflexivity.
Qed.

(** ** C212 *)

(** What a newcomer to a stream is handed at once: at most three headers and as
    many media packets as lie between key frames; no media at all while there
    has been no key frame. *)
Theorem newcomer_burst : forall shape os s pre v a name i,
  keeps_order shape -> env_ok shape live0 os ->
  play_events shape live0 [] os = (s, (OPlay v a name, Done) :: pre) ->
  owner name pre = Some (i, 0%nat) ->
  exists x, l_views s v = Some x /\
    (forall K, (1 <= K)%nat -> key_every K (filter is_media (puts i 0 pre)) -> (length (v_queue x) <= K + 3)%nat) /\
    ((forall p, In p (puts i 0 pre) -> is_media p = true -> is_keyframe p = false) ->
     (length (v_queue x) <= 3)%nat /\ forall p, In p (v_queue x) -> is_media p = false).
Proof.
  intros shape os s pre v a name i Hsh He Hr Ho.
  destruct (viewer_stream shape os s [] pre v a name Hsh He Hr (fun H => H)) as (i1 & k1 & x & Ho1 & Ev & _ & Eq).
  rewrite Ho in Ho1. injection Ho1 as <- <-. cbn in Eq. rewrite app_nil_r in Eq.
  exists x. split; [exact Ev|]. rewrite Eq. unfold gop_snapshot. set (h := puts i 0 pre).
  pose proof (maybe_length (last_such is_script h)) as A. pose proof (maybe_length (last_such is_audio_seq h)) as B.
  pose proof (maybe_length (last_such is_video_seq h)) as C.
  split.
  - intros K HK Hk. pose proof (from_last_key_bound K _ HK Hk). rewrite !app_length. lia.
  - intros Hn. rewrite from_last_key_none, app_nil_r.
    2: { destruct (existsb is_keyframe (filter is_media h)) eqn:E; [|reflexivity]. exfalso.
         apply existsb_exists in E as (p & Hp & Hk). apply filter_In in Hp as [Hi Hm]. rewrite (Hn p Hi Hm) in Hk. discriminate. }
    split; [rewrite !app_length; lia|].
    intros p Hp. unfold is_media.
    apply in_app_or in Hp as [Hp|Hp]; [|apply in_app_or in Hp as [Hp|Hp]].
    + destruct (last_such is_script h) eqn:E; [|destruct Hp]. destruct Hp as [<-|[]].
      rewrite (last_such_true _ _ _ E), orb_true_r. reflexivity.
    + destruct (last_such is_audio_seq h) eqn:E; [|destruct Hp]. destruct Hp as [<-|[]].
      rewrite (last_such_true _ _ _ E). reflexivity.
    + destruct (last_such is_video_seq h) eqn:E; [|destruct Hp]. destruct Hp as [<-|[]].
      rewrite (last_such_true _ _ _ E), orb_true_r. reflexivity.
Qed.
Print Assumptions newcomer_burst.

(** Without further key frames it grows with the stream. *)
Theorem newcomer_burst_bounded_refuted : forall N : nat,
  exists shape os s pre x, keeps_order shape /\ env_ok shape live0 os /\
    play_events shape live0 [] os = (s, (OPlay 0 50 (str "h/a"), Done) :: pre) /\
    puts 0 0 pre = exk 1 :: repeat (exp_ 2) N /\
    l_views s 0 = Some x /\ v_queue x = exk 1 :: repeat (exp_ 2) N.
Proof.
  intros N. pose (ps := exk 1 :: repeat (exp_ 2) N).
  pose (s1 := fst (play_events (fun _ => spine) live0 [] [OPublish 0 (str "h/a")])).
  destruct (puts_all_done (fun _ => spine) 0 0 false [(str "h/a", 0%nat)] (str "h/a", 0%nat) eq_refl
              ps s1 [(OPublish 0 (str "h/a"), Done)] eq_refl) as (s2 & R).
  set (h2 := done_puts 0 0 ps ++ [(OPublish 0 (str "h/a"), Done)]) in R.
  assert (R2 : play_events (fun _ => spine) live0 [] (OPublish 0 (str "h/a") :: map (OPut 0 0) ps) = (s2, h2)).
  { exact R. }
  assert (E2 : env_ok (fun _ => spine) live0 (OPublish 0 (str "h/a") :: map (OPut 0 0) ps)).
  { split; [exact I|]. apply env_ok_puts. }
  assert (V2 : forall v, l_views s2 v = None).
  { refine (puts_no_views _ _ _ _ _ _ _ _ spine_order R); [reflexivity|]. intros [|c]; reflexivity. }
  assert (Ho2 : owner (str "h/a") h2 = Some (0%nat, 0%nat)).
  { unfold h2, done_puts. generalize ps. intros l. induction l as [|p l IH] using rev_ind; [reflexivity|].
    rewrite map_app, rev_app_distr. exact IH. }
  destruct (run_inv _ _ _ _ spine_order E2 R2) as (gc & HS).
  destruct (l_reg s2 (str "h/a")) as [c|] eqn:Er.
  2: { pose proof (s_reg _ _ _ HS (str "h/a")) as X. rewrite Er in X. congruence. }
  destruct (step (fun _ => spine) s2 (OPlay 0 50 (str "h/a"))) as [s3 o] eqn:E3.
  assert (o = Done) as ->.
  { cbn [step] in E3. rewrite V2, Er in E3. injection E3 as _ <-. reflexivity. }
  assert (R3 : play_events (fun _ => spine) live0 [] ((OPublish 0 (str "h/a") :: map (OPut 0 0) ps) ++ [OPlay 0 50 (str "h/a")])
               = (s3, (OPlay 0 50 (str "h/a"), Done) :: h2)).
  { rewrite play_events_app, R2. cbn [play_events]. rewrite E3. reflexivity. }
  assert (He3 : env_ok (fun _ => spine) live0 ((OPublish 0 (str "h/a") :: map (OPut 0 0) ps) ++ [OPlay 0 50 (str "h/a")])).
  { apply env_ok_join; [exact E2|]. rewrite R2. split; [|exact I]. cbn [fst]. intros v y Hy. rewrite V2 in Hy. discriminate. }
  destruct (viewer_stream _ _ _ [] _ _ _ _ spine_order He3 R3 (fun H => H)) as (i & k & x & Ho & Ev & _ & Eq).
  rewrite Ho2 in Ho. injection Ho as <- <-. cbn [given puts app snapshot] in Eq. rewrite app_nil_r in Eq.
  assert (Hp : puts 0 0 h2 = ps) by (unfold h2; rewrite puts_app, puts_done; reflexivity).
  exists (fun _ => spine), ((OPublish 0 (str "h/a") :: map (OPut 0 0) ps) ++ [OPlay 0 50 (str "h/a")]), s3, h2, x.
  split; [exact spine_order|]. split; [exact He3|]. split; [exact R3|]. split; [exact Hp|]. split; [exact Ev|].
  rewrite Eq, Hp. unfold gop_snapshot.
  assert (L : forall f, f (exk 1) = false -> f (exp_ 2) = false -> last_such f ps = None).
  { intros f F1 F2. unfold ps. cbn [last_such]. rewrite F1.
    assert (last_such f (repeat (exp_ 2) N) = None) as ->; [|reflexivity].
    clear -F2. induction N as [|n IH]; [reflexivity|]. cbn. rewrite IH, F2. reflexivity. }
  rewrite (L is_script eq_refl eq_refl), (L is_audio_seq eq_refl eq_refl), (L is_video_seq eq_refl eq_refl). cbn [maybe app].
  assert (filter is_media ps = ps) as ->.
  { unfold ps. cbn [filter]. change (is_media (exk 1)) with true. cbv iota. f_equal.
    clear. induction N as [|n IH]; [reflexivity|]. cbn [repeat filter]. change (is_media (exp_ 2)) with true. cbv iota. rewrite IH. reflexivity. }
  change ps with ([exk 1] ++ repeat (exp_ 2) N). rewrite from_last_key_grow; [reflexivity|reflexivity|].
  clear. induction N as [|n IH]; [reflexivity|exact IH].
Qed.
Print Assumptions newcomer_burst_bounded_refuted.

(** A key frame at least every two media packets; and a stream without any. *)
Definition ex_burst : list op :=
  [OPublish 0 (str "h/a"); OPut 0 0 (exk 1); OPut 0 0 (exp_ 2); OPut 0 0 (exk 3); OPut 0 0 (exp_ 4); OPlay 0 50 (str "h/a")].
Example ex_burst_case :
  env_ok (fun _ => spine) live0 ex_burst /\
  option_map v_queue (l_views (fst (play_events (fun _ => spine) live0 [] ex_burst)) 0) = Some [exk 3; exp_ 4] /\
  key_every 2 [exk 1; exp_ 2; exk 3; exp_ 4].
Proof.
  split; [apply (env_b_ok0 2); vm_compute; reflexivity|]. split; [vm_compute; reflexivity|].
  intros a w b E L. destruct w as [|x [|y [|]]]; try discriminate L.
  destruct a as [|a1 [|a2 [|a3 [|a4 a]]]]; cbn in E; injection E; intros; subst; try reflexivity; try discriminate.
  destruct a; discriminate.
Qed.
Example ex_burst_none :
  option_map v_queue (l_views (fst (play_events (fun _ => spine) live0 []
    [OPublish 0 (str "h/a"); OPut 0 0 (exp_ 1); OPut 0 0 (exp_ 2); OPlay 0 50 (str "h/a")])) 0) = Some [].
Proof. vm_compute. reflexivity. Qed.

(** ** C213 *)

(** With edges too: a publisher is turned away, and a player accepted, only
    while some source that was accepted on the name has not ended. *)
Theorem name_taken_only_by_a_source : forall shape os s post o x pre, keeps_order shape -> env_ok shape live0 os ->
  play_events shape live0 [] os = (s, post ++ (o, x) :: pre) ->
  match o, x with
  | OPublish _ n, Refused _ | OSrtPublish _ n, Refused _ | OPlay _ _ n, Done => exists j k, holds j n pre = Some k
  | _, _ => True
  end.
Proof. exact refused_only_if_held. Qed.
Print Assumptions name_taken_only_by_a_source.

(** An edge takes a name, a publisher is turned away, the edge ends, the
    publisher is accepted. *)
Example ex_edge_names :
  map snd (snd (play_events (fun _ => spine) live0 []
    [OEdgeStart 0 (str "h/a"); OEdgeOpen 0; OPublish 1 (str "h/a"); OPlay 0 5 (str "h/a"); OEnd 0; OPublish 1 (str "h/a")]))
  = [Done; Done; Done; Refused ERROR_HTTP_HAS_SOURCE; Done; Done] /\
  holds 0 (str "h/a") [(OEdgeOpen 0, Done); (OEdgeStart 0 (str "h/a"), Done)] = Some 0%nat.
Proof. split; vm_compute; reflexivity. Qed.
