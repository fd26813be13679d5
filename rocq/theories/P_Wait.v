(** Properties C164 to C168 and C172: players that wait. *)
From Verif Require Import Base M_Packet M_Cache M_Live M_Wait S_Cache S_Live S_Wait L_Live L_Live2 L_Wait P_Live.

(** C164.  A player that asks for a stream is attached to it or has been told that
    there is none by ten seconds after its arrival, whatever else happens. *)
Theorem origin_wait_bounded : forall shape os v addr name edge i started rs,
  let s0 := wrun shape w0 os in
  let s := wrun shape (wstep shape s0 (WArrive v addr name edge i started)) rs in
  t_get (w_thr s0) v = None -> l_src (w_live s0) i = None -> w_now s0 + 10000000 < w_now s ->
  (exists x, l_views (w_live s) v = Some x) \/
  exists at_, w_now s0 <= at_ <= w_now s0 + 10000000 /\
    t_get (w_thr s) v = Some (PEnd (w_now s0) at_ ERROR_STREAM_SOURCE_NOT_EXITS).
Proof.
  intros shape os v addr name edge i started rs s0 s H1 H2 Hlt.
  assert (I0 : winv s0) by apply winv_run, winv0.
  assert (Hv : l_views (w_live s0) v = None).
  { destruct (l_views (w_live s0) v) eqn:E; [|reflexivity]. exfalso. eapply (wi_views _ I0); eauto. }
  assert (I1 : winv (wstep shape s0 (WArrive v addr name edge i started))) by (apply winv_step, I0).
  assert (I : winv s) by (apply winv_run, I1).
  pose proof (asking_run shape rs _ v name (w_now s0) I1 (arrive_asks shape s0 v addr name edge i started H1 Hv H2)) as A. fold s in A.
  change 10000000 with WAIT_US in *.
  destruct A as [(e & r & A)|[(r & A)|[(a & A)|A]]].
  - pose proof (wi_thr _ I v _ A) as (K & _). lia.
  - pose proof (wi_thr _ I v _ A) as (K & _). lia.
  - right. exists a. pose proof (wi_thr _ I v _ A) as (K & _). auto.
  - left. exact A.
Qed.
Definition na := str "h/a".
Definition sp : shaper := fun _ => spine.
(** Two players ask, three seconds apart; the origin answers at four seconds, the
    third player's origin never does. *)
Definition ex_wait : list wop :=
  [WArrive 0 50 na true 0 true; WTime 3000000; WArrive 1 51 na true 1 true; WTime 4000000; WArrive 2 52 (str "h/b") true 2 true;
   WSrc (OEdgeOpen 0); WRun 1 51; WRun 0 50; WTime 14000000; WRun 2 52; WTime 14000001].
Example origin_wait_case : let s := wrun sp w0 ex_wait in
  w_now s = 14000001 /\ t_get (w_thr s) 0 = Some PWriting /\ t_get (w_thr s) 1 = Some PWriting /\
  t_get (w_thr s) 2 = Some (PEnd 4000000 14000000 ERROR_STREAM_SOURCE_NOT_EXITS) /\ l_src (w_live s) 1 = None.
Proof. vm_compute. repeat split. Qed.
Print Assumptions origin_wait_bounded.

(** C165.  However many players ask for a name, one connection to the origin is
    being made or used for it, and all of them wait for that one; provided that
    nobody asks for a name between the end of a pull and the moment the player
    that started it goes on. *)
Theorem one_pull_per_name : forall shape os, calm shape w0 os -> let s := wrun shape w0 os in
  (forall i j n, pulls (w_live s) i n -> pulls (w_live s) j n -> i = j) /\
  (forall v w n e f a b t u, t_get (w_thr s) v = Some (PEdge n e a t) -> t_get (w_thr s) w = Some (PEdge n f b u) -> e = f).
Proof.
  intros shape os Hc s. assert (I : winv s) by apply winv_run, winv0. assert (C : cinvw s) by (apply cinvw_run; [apply winv0|exact Hc|apply cinvw0]).
  destruct C as (A & _). split.
  - intros i j n H1 H2. apply A in H1. apply A in H2. congruence.
  - intros v w n e f a b t u H1 H2. apply (wi_thr _ I) in H1. apply (wi_thr _ I) in H2. cbn [pinv] in *.
    destruct H1 as (_ & H1 & _). destruct H2 as (_ & H2 & _). apply A in H1. apply A in H2. congruence.
Qed.
Example one_pull_case : calm sp w0 (firstn 5 ex_wait) /\ let s := wrun sp w0 (firstn 5 ex_wait) in
  t_get (w_thr s) 0 = Some (PEdge na 0 true 0) /\ t_get (w_thr s) 1 = Some (PEdge na 0 false 3000000) /\ pulls (w_live s) 0 na.
Proof.
  split; [apply calm_b_ok; vm_compute; reflexivity|]. cbv zeta. split; [vm_compute; reflexivity|]. split; [vm_compute; reflexivity|]. left. vm_compute. reflexivity.
Qed.
Print Assumptions one_pull_per_name.
(** Otherwise (refuted): the player that started a pull which has ended takes, when
    it goes on, the next pull out of the table; the next player starts another. *)
Theorem one_pull_per_name_refuted : exists shape os n, let s := wrun shape w0 os in
  keeps_order shape /\ pulls (w_live s) 1 n /\ pulls (w_live s) 2 n.
Proof.
  exists sp, [WArrive 0 50 na true 0 true; WSrc (OEnd 0); WArrive 1 51 na true 1 true; WRun 0 50; WArrive 2 52 na true 2 true], na.
  split; [exact spine_order|]. split; left; vm_compute; reflexivity.
Qed.
Print Assumptions one_pull_per_name_refuted.

(** C165.  A pull that has ended is in nobody's way: if the name has no stream and no
    edge is connecting to or pulling it, the next player on an edge server starts
    a new pull. *)
Theorem pull_starts_when_none_runs : forall shape os v addr n i, let s := wrun shape w0 os in
  t_get (w_thr s) v = None -> l_src (w_live s) i = None -> l_reg (w_live s) n = None ->
  (forall j, l_src (w_live s) j <> Some (SOpening n)) -> (forall j c, l_src (w_live s) j <> Some (SActive true [(n, c)])) ->
  l_src (w_live (wstep shape s (WArrive v addr n true i true))) i = Some (SOpening n).
Proof.
  intros shape os v addr n i s H1 H2 H3 H4 H5. assert (I : winv s) by apply winv_run, winv0.
  assert (Hv : l_views (w_live s) v = None).
  { destruct (l_views (w_live s) v) eqn:E; [|reflexivity]. exfalso. eapply (wi_views _ I); eauto. }
  assert (He : l_edges (w_live s) n = None).
  { destruct (l_edges (w_live s) n) as [e|] eqn:E; [|reflexivity]. exfalso. destruct (wi_edges _ I) as (A & _).
    destruct (A n e E) as [K|(c & K)]; [eapply H4|eapply H5]; exact K. }
  cbn [wstep step]. rewrite H1, Hv, H3, He, H2. apply updn_same.
Qed.
Example pull_again_case : let s := wrun sp w0 [WArrive 0 50 na true 0 true; WSrc (OEnd 0); WRun 0 50] in
  l_src (w_live s) 0 = Some SDone /\ l_reg (w_live s) na = None /\ l_src (w_live (wstep sp s (WArrive 1 51 na true 1 true))) 1 = Some (SOpening na).
Proof. vm_compute. repeat split. Qed.
Print Assumptions pull_starts_when_none_runs.

(** C165.  When the origin answers, everybody who waits for it is attached before
    the clock moves, unless a source ends in that very moment or somebody asks
    for a name whose pull has just ended. *)
Theorem origin_serves_all_waiting : forall shape os i n rs, let s := wrun shape w0 os in
  calm shape w0 (os ++ WSrc (OEdgeOpen i) :: rs) -> l_src (w_live s) i = Some (SOpening n) -> Forall no_end rs ->
  let s' := wrun shape (wstep shape s (WSrc (OEdgeOpen i))) rs in
  w_now s < w_now s' -> forall v t e b, t_get (w_thr s) v = Some (PEdge n e b t) -> exists x, l_views (w_live s') v = Some x.
Proof.
  intros shape os i n rs s Hc Hi Hf s' Hlt v t e b Hv. assert (I : winv s) by apply winv_run, winv0.
  apply calm_app in Hc. destruct Hc as (Hc1 & Hc2). fold s in Hc2. cbn [calm] in Hc2. destruct Hc2 as (Hc2 & Hc3).
  assert (C : cinvw s) by (apply cinvw_run; [apply winv0|exact Hc1|apply cinvw0]).
  assert (Ee : e = i).
  { pose proof (wi_thr _ I v _ Hv) as (_ & E & _). destruct C as (A & _). apply A in E. assert (E2 : l_edges (w_live s) n = Some i) by (apply A; left; exact Hi). congruence. }
  subst e. apply (woken_served shape rs _ v n (if b then Some i else None) t (w_now s)); [apply winv_step, I|apply cinvw_step; assumption|exact Hc3|exact Hf| |exact Hlt].
  left. cbn [wstep by_source step]. rewrite Hi. cbn [w_thr w_now w_live]. rewrite t_get_map, Hv. cbn [option_map wake_edge]. rewrite Nat.eqb_refl.
  split; [reflexivity|]. split; [reflexivity|]. cbn [set_src new_cache l_reg]. rewrite updk_same. discriminate.
Qed.
Example origin_serves_case : calm sp w0 (firstn 5 ex_wait ++ WSrc (OEdgeOpen 0) :: [WRun 1 51; WRun 0 50; WTime 4000001]) /\ let s := wrun sp w0 (firstn 5 ex_wait) in
  l_src (w_live s) 0 = Some (SOpening na) /\
  let s' := wrun sp (wstep sp s (WSrc (OEdgeOpen 0))) [WRun 1 51; WRun 0 50; WTime 4000001] in
  w_now s < w_now s' /\ option_map v_alive (l_views (w_live s') 0) = Some true /\ option_map v_alive (l_views (w_live s') 1) = Some true.
Proof. split; [apply calm_b_ok; vm_compute; reflexivity|]. vm_compute. repeat split. Qed.
Print Assumptions origin_serves_all_waiting.

(** C165.  When the origin fails and no other source has the name, everybody who
    waits for that pull is told so at once. *)
Theorem origin_failure_told_at_once : forall shape os i n rs, let s := wrun shape w0 os in
  l_src (w_live s) i = Some (SOpening n) -> l_reg (w_live s) n = None -> Forall no_source rs ->
  let s' := wrun shape (wstep shape s (WSrc (OEnd i))) rs in
  w_now s < w_now s' -> forall v t b, t_get (w_thr s) v = Some (PEdge n i b t) ->
  t_get (w_thr s') v = Some (PEnd t (w_now s) ERROR_STREAM_SOURCE_NOT_EXITS).
Proof.
  intros shape os i n rs s Hi Hr Hf s' Hlt v t b Hv. assert (I : winv s) by apply winv_run, winv0.
  apply (woken_refused shape rs _ v n (if b then Some i else None) t (w_now s)); [apply winv_step, I|exact Hf| |exact Hlt].
  left. cbn [wstep by_source]. assert (Ed : step shape (w_live s) (OEnd i) = (set_src (set_edge (w_live s) n None) i (SLeft false [n]), Done)) by (cbn [step]; rewrite Hi; reflexivity).
  rewrite Ed. cbn [w_thr w_now w_live]. rewrite t_get_map, Hv. cbn [option_map wake_edge]. rewrite Nat.eqb_refl.
  split; [reflexivity|]. split; [reflexivity|]. destruct (held (w_thr s) i); [exact Hr|]. apply drop_free. exact Hr.
Qed.
Example origin_failure_case : let s := wrun sp w0 (firstn 5 ex_wait) in
  l_src (w_live s) 0 = Some (SOpening na) /\ l_reg (w_live s) na = None /\
  let s' := wrun sp (wstep sp s (WSrc (OEnd 0))) [WRun 1 51; WRun 0 50; WTime 4000001] in
  t_get (w_thr s') 0 = Some (PEnd 0 4000000 ERROR_STREAM_SOURCE_NOT_EXITS) /\ t_get (w_thr s') 1 = Some (PEnd 3000000 4000000 ERROR_STREAM_SOURCE_NOT_EXITS).
Proof. vm_compute. repeat split. Qed.
Print Assumptions origin_failure_told_at_once.

(** C165.  A pull that ends while no player still has to go on from having started
    it leaves nothing behind: the edge object is gone with the name. *)
Theorem ended_pull_gone : forall shape s i, 
  (exists n, l_src (w_live s) i = Some (SOpening n)) \/ (exists ks, l_src (w_live s) i = Some (SActive true ks)) ->
  (forall v p, In (v, p) (w_thr s) -> (forall n t, p <> PEdge n i true t) /\ (forall n t, p <> PWoken n (Some i) t)) ->
  l_src (w_live (wstep shape s (WSrc (OEnd i)))) i = Some SDone.
Proof.
  intros shape s i Hs Hp.
  assert (Hh : held (w_thr s) i = false).
  { unfold held. apply Bool.not_true_iff_false. intros H. apply existsb_exists in H as ((v & p) & Hin & H). cbn [snd] in H.
    destruct (Hp v p Hin) as [A B]. destruct p as [n e b t|n o t| | | |]; try discriminate; cbn [owns] in H.
    - destruct b; [|discriminate]. apply Nat.eqb_eq in H. subst e. exact (A n t eq_refl).
    - destruct o as [e|]; [|discriminate]. apply Nat.eqb_eq in H. subst e. exact (B n t eq_refl). }
  assert (D : forall l b ks, l_src l i = Some (SLeft b ks) -> l_src (fst (step shape l (OEdgeDrop i))) i = Some SDone).
  { intros l b ks E. cbn [step]. rewrite E. cbn [fst set_src l_src]. apply updn_same. }
  cbn [wstep by_source]. destruct Hs as [(n & E)|(ks & E)]; cbn [step]; rewrite E, Hh; cbn [w_live]; eapply D; cbn [set_src l_src]; apply updn_same.
Qed.
Example ended_pull_case : let s := wrun sp w0 [WArrive 0 50 na true 0 true; WSrc (OEdgeOpen 0); WRun 0 50] in
  w_thr s = [(0%nat, PWriting)] /\ (exists ks, l_src (w_live s) 0 = Some (SActive true ks)) /\
  l_src (w_live (wstep sp s (WSrc (OEnd 0)))) 0 = Some SDone.
Proof. vm_compute. split; [reflexivity|]. split; [eexists; reflexivity|reflexivity]. Qed.
Print Assumptions ended_pull_gone.

(** C166.  A player that waits for packets has been given everything: the snapshot
    of its source when it joined and every packet put since; none is left queued
    while it sleeps. *)
Theorem idle_player_has_everything : forall shape os s h v since, timed shape os s h -> t_get (w_thr s) v = Some (PIdle since) ->
  exists post pre addr name i k, h = post ++ (OPlay v addr name, Done) :: pre /\ owner name pre = Some (i, k) /\
    given v post = snapshot k (puts i k pre) ++ puts i k post.
Proof. intros shape os s h v since. apply idle_everything. Qed.
(** C166.  And the clock does not move while a player has something to take. *)
Theorem no_sleep_with_packets : forall shape os t v since, let s := wrun shape w0 os in
  w_now s < w_now (wstep shape s (WTime t)) ->
  t_get (w_thr s) v = Some (PIdle since) \/ t_get (w_thr s) v = Some (PReady since) ->
  t_get (w_thr s) v = Some (PIdle since) /\ exists x, l_views (w_live s) v = Some x /\ v_queue x = [].
Proof.
  intros shape os t v since s Hlt Hv. assert (I : winv s) by apply winv_run, winv0.
  destruct (wstep_now shape s (WTime t)) as [E|(t' & _ & _ & _ & H)]; [lia|].
  destruct Hv as [Hv|Hv]; [|specialize (H v _ Hv); discriminate]. split; [exact Hv|].
  pose proof (wi_thr _ I v _ Hv) as (_ & (x & Ex & _) & Hq). exists x. split; [exact Ex|]. unfold queue_of in Hq. rewrite Ex in Hq. exact Hq.
Qed.
(** A publisher, a player that joins late, sleeps, and is woken by a packet. *)
Definition ex_idle : list wop :=
  [WSrc (OPublish 0 na); WSrc (OPut 0 0 (exk 1)); WArrive 0 50 na false 9 false; WWrote 0 0; WWrote 0 0; WTime 2000000;
   WSrc (OPut 0 0 (exp_ 2)); WRun 0 0; WSrc (OPut 0 0 (exp_ 3)); WTime 2500000; WWrote 0 0; WWrote 0 0; WTime 3000000].
Example idle_case : exists s h, timed sp ex_idle s h /\ t_get (w_thr s) 0 = Some (PIdle 2500000) /\
  given 0 h = [exk 1; exp_ 2; exp_ 3] /\ w_now s < w_now (wstep sp s (WTime 4000000)).
Proof.
  eexists _, _. split; [split; [exact spine_order|split; [apply (env_b_ok0 1); vm_compute; reflexivity|split; reflexivity]]|].
  vm_compute. repeat split.
Qed.
Print Assumptions idle_player_has_everything.
Print Assumptions no_sleep_with_packets.

(** C167.  A player that has waited for packets since [since] is dropped with the
    timeout code exactly ten seconds later if none comes; in particular after
    its source has ended, which is not told to players. *)
Theorem silent_player_dropped : forall shape os rs s h v since, timed shape (os ++ rs) s h ->
  let s0 := wrun shape w0 os in
  t_get (w_thr s0) v = Some (PIdle since) -> silent shape v s0 rs -> since + 10000000 < w_now s ->
  t_get (w_thr s) v = Some (PEnd since (since + 10000000) ERROR_SOCKET_TIMEOUT).
Proof.
  intros shape os rs s h v since T s0 Hv Hs Hlt. change 10000000 with WAIT_US in *.
  assert (I0 : winv s0) by apply winv_run, winv0. pose proof (wi_thr _ I0 v _ Hv) as (_ & _ & Hq).
  pose proof (starving_run shape rs os s h v since T (or_introl (conj Hq (or_introl Hv))) Hs) as K.
  pose proof (timed_winv _ _ _ _ T) as I. destruct K as [(_ & [K|K])|K]; [| |exact K].
  - pose proof (wi_thr _ I v _ K) as (B & _). lia.
  - pose proof (wi_thr _ I v _ K) as (B & _). lia.
Qed.
(** Nobody is dropped earlier: the timeout code with ten seconds not over is the
    client's own (a failed write). *)
Theorem dropped_in_time : forall shape os v since at_ code, t_get (w_thr (wrun shape w0 os)) v = Some (PEnd since at_ code) ->
  since <= at_ <= since + 10000000 /\
  (at_ <> since -> (exists x, l_views (w_live (wrun shape w0 os)) v = Some x) -> code = ERROR_SOCKET_TIMEOUT /\ at_ = since + 10000000).
Proof.
  intros shape os v since at_ code H. assert (I : winv (wrun shape w0 os)) by apply winv_run, winv0. pose proof (wi_thr _ I v _ H) as (A & _ & B).
  change 10000000 with WAIT_US. split; [exact A|]. intros Hne (x & Hx). destruct B as [(_ & B)|(_ & [B|(_ & B)])]; [congruence|exact B|congruence].
Qed.
(** C167.  And time can pass, whatever has happened before: with no further event
    than waits that end and players that go on, any time is reached; no wait
    holds the clock. *)
Theorem clock_goes_on : forall shape os t, exists rs,
  Forall (fun o => match o with WRun _ _ | WTime _ => True | _ => False end) rs /\ t <= w_now (wrun shape (wrun shape w0 os) rs).
Proof.
  intros shape os t. apply (clock_on shape (fun _ => 0) t _ _ (le_n _)); [apply winv_run, winv0|apply keys_run; constructor].
Qed.
Example clock_case : w_now (wrun sp (wrun sp w0 ex_idle) [WTime 12500000; WRun 0 0; WTime 20000000]) = 20000000 /\
  w_now (wstep sp (wrun sp w0 ex_idle) (WTime 12500001)) = 3000000.
Proof. vm_compute. split; reflexivity. Qed.
Print Assumptions clock_goes_on.
Definition ex_drop : list wop := [WSrc (OEnd 0); WTime 12500000; WRun 0 0; WTime 12500001].
Example silent_case : exists s h, timed sp (ex_idle ++ ex_drop) s h /\ silent sp 0 (wrun sp w0 ex_idle) ex_drop /\ 2500000 + 10000000 < w_now s /\
  t_get (w_thr s) 0 = Some (PEnd 2500000 12500000 ERROR_SOCKET_TIMEOUT).
Proof.
  eexists _, _. split; [split; [exact spine_order|split; [apply (env_b_ok0 1); vm_compute; reflexivity|split; reflexivity]]|].
  split; [|vm_compute; repeat split]. unfold ex_drop. cbn [silent put_into]. repeat split; discriminate.
Qed.
Print Assumptions silent_player_dropped.
Print Assumptions dropped_in_time.

(** C168 (refuted): a player does not go on waiting for the origin once the stream
    is there.  A publisher that takes the name while an edge is connecting wakes
    nobody. *)
Theorem waiting_ends_with_stream_refuted : exists shape os v name e own since i ks, let s := wrun shape w0 os in
  keeps_order shape /\ t_get (w_thr s) v = Some (PEdge name e own since) /\ since + 9000000 <= w_now s /\
  l_src (w_live s) i = Some (SActive false ks) /\ In name (map fst ks) /\ l_reg (w_live s) name <> None.
Proof.
  exists sp, [WArrive 0 50 na true 0 true; WSrc (OPublish 1 na); WTime 9000000], 0%nat, na, 0%nat, true, 0, 1%nat, [(na, 0%nat)].
  split; [exact spine_order|]. vm_compute. repeat split; auto; discriminate.
Qed.
Print Assumptions waiting_ends_with_stream_refuted.
(** C168.  It is so in general: nothing but the end of the pull it waits for, one way or
    the other, or ten seconds end the wait of a player; no publisher does. *)
Theorem only_origin_ends_wait : forall shape rs s v n e own since,
  t_get (w_thr s) v = Some (PEdge n e own since) -> Forall (fun o => o <> WSrc (OEdgeOpen e) /\ o <> WSrc (OEnd e)) rs ->
  w_now (wrun shape s rs) < since + 10000000 -> t_get (w_thr (wrun shape s rs)) v = Some (PEdge n e own since).
Proof.
  intros shape. induction rs as [|o rs IH]; intros s v n e own since Hv HF Hn; [exact Hv|]. inversion HF as [|? ? (Ho & He) HF']; subst.
  cbn [wrun] in *. apply IH; [|exact HF'|exact Hn]. apply edge_wait_stays; [exact Hv|exact Ho|exact He|].
  pose proof (wrun_mono shape rs (wstep shape s o)). change WAIT_US with 10000000. lia.
Qed.
Example only_origin_ends_wait_case :
  let s := wrun sp w0 [WArrive 0 50 na true 0 true] in let rs := [WSrc (OPublish 1 na); WSrc (OPut 1 0 (exk 1)); WArrive 2 51 na true 3 true; WTime 9999999; WSrc (OEnd 1)] in
  t_get (w_thr s) 0 = Some (PEdge na 0 true 0) /\ w_now (wrun sp s rs) = 9999999 /\ t_get (w_thr (wrun sp s rs)) 2 = Some PWriting.
Proof. vm_compute. repeat split. Qed.
Print Assumptions only_origin_ends_wait.
(** C168 (refuted): a stream that an edge is pulling can be played.  If a publisher
    held the name while the edge connected, its end takes the edge's stream
    away; every later player waits ten seconds for the running edge and is
    refused. *)
Theorem pulled_stream_can_be_played_refuted : exists shape os e c v, let s := wrun shape w0 os in
  keeps_order shape /\ l_edges (w_live s) na = Some e /\ l_src (w_live s) e = Some (SActive true [(na, c)]) /\
  t_get (w_thr s) v = Some (PEnd 1000000 11000000 ERROR_STREAM_SOURCE_NOT_EXITS).
Proof.
  exists sp, [WArrive 0 50 na true 0 true; WSrc (OPublish 1 na); WSrc (OEdgeOpen 0); WRun 0 50; WSrc (OPut 0 0 (exk 1)); WSrc (OEnd 1); WTime 1000000;
    WArrive 1 51 na true 3 true; WWrote 0 0; WSrc (OPut 0 0 (exp_ 2)); WTime 11000000; WRun 1 51; WSrc (OPut 0 0 (exk 3))], 0%nat, 1%nat, 1%nat.
  split; [exact spine_order|]. vm_compute. repeat split.
Qed.
Print Assumptions pulled_stream_can_be_played_refuted.

(** C172.  A player that goes on, from whatever wait, takes no name from anybody;
    under the same proviso. *)
Theorem going_on_keeps_names : forall shape os v addr, calm shape w0 os -> let s := wrun shape w0 os in
  let s' := wstep shape s (WRun v addr) in
  (forall m, l_reg (w_live s') m = l_reg (w_live s) m) /\ (forall m, l_edges (w_live s') m = l_edges (w_live s) m).
Proof.
  intros shape os v addr Hc s s'. assert (I : winv s) by apply winv_run, winv0. assert (C : cinvw s) by (apply cinvw_run; [apply winv0|exact Hc|apply cinvw0]).
  destruct (run_facts shape s v addr I C) as (_ & A & B). auto.
Qed.
(** A pull ends before its player goes on; the player is refused, another name stays. *)
Definition ex_end : list wop :=
  [WSrc (OPublish 1 (str "h/b")); WArrive 0 50 na true 0 true; WSrc (OEdgeOpen 0); WSrc (OEnd 0)].
Example going_on_case : calm sp w0 ex_end /\ let s := wrun sp w0 ex_end in
  t_get (w_thr s) 0 = Some (PWoken na (Some 0%nat) 0) /\ l_src (w_live s) 0 = Some (SLeft true [na]) /\
  let s' := wstep sp s (WRun 0 50) in l_reg (w_live s') (str "h/b") = Some 0%nat /\ l_src (w_live s') 0 = Some SDone /\
    t_get (w_thr s') 0 = Some (PEnd 0 0 ERROR_STREAM_SOURCE_NOT_EXITS).
Proof. split; [apply calm_b_ok; vm_compute; reflexivity|]. vm_compute. repeat split. Qed.
Print Assumptions going_on_keeps_names.
(** C172 (refuted): a publisher's stream stays until the publisher ends.  A publisher
    that takes the name after a pull has ended, and before the player that
    started the pull goes on, loses its stream when that player does: it goes
    on publishing, nobody can play it, and a second publisher is let in. *)
Theorem published_stream_stays_refuted : exists shape os v addr n ks, let s := wrun shape w0 os in let s' := wstep shape s (WRun v addr) in
  keeps_order shape /\ l_src (w_live s) 1 = Some (SActive false ks) /\ In n (map fst ks) /\ l_reg (w_live s) n <> None /\
  l_src (w_live s') 1 = Some (SActive false ks) /\ l_reg (w_live s') n = None /\
  exists ks', l_src (w_live (wstep shape s' (WSrc (OPublish 2 n)))) 2 = Some (SActive false ks') /\ In n (map fst ks').
Proof.
  exists sp, [WArrive 0 50 na true 0 true; WSrc (OEdgeOpen 0); WSrc (OEnd 0); WSrc (OPublish 1 na)], 0%nat, 50, na, [(na, 1%nat)].
  split; [exact spine_order|]. vm_compute. repeat split; auto; try discriminate. eexists. split; [reflexivity|]. left. reflexivity.
Qed.
Print Assumptions published_stream_stays_refuted.
