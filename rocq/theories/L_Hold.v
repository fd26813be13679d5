(** Lemmas about how much is held for viewers and newcomers, and about names. *)
From Verif Require Import Base M_Packet M_Cache M_Live S_Cache S_Live S_Hold L_Cache L_LiveSet L_Live L_Live2.

Lemma run_inv shape os s h : keeps_order shape -> env_ok shape live0 os ->
  play_events shape live0 [] os = (s, h) -> exists gc, sinv gc s h.
Proof.
  intros Hsh He Hr. destruct inv0 as [HS0 HV0].
  destruct (play_events_inv _ _ Hsh _ _ _ _ _ He tinv0 HS0 HV0 Hr) as (gc & HS & _). eauto.
Qed.

Lemma holds_src gc s h i n k : sinv gc s h -> holds i n h = Some k ->
  exists e keys c, l_src s i = Some (SActive e keys) /\ nth_error keys k = Some (n, c).
Proof.
  intros HS Hh. destruct (l_src s i) as [[m|e keys|b ks|]|] eqn:Es.
  - destruct (s_open _ _ _ HS i m Es) as (_ & A & _). rewrite A in Hh. discriminate.
  - destruct (s_act _ _ _ HS i e keys Es) as [A _]. apply A in Hh as (c & Hc). eauto 6.
  - rewrite (s_left _ _ _ HS i b ks Es) in Hh. discriminate.
  - rewrite (s_done _ _ _ HS i Es) in Hh. discriminate.
  - destruct (s_none _ _ _ HS i Es) as (_ & A & _). rewrite A in Hh. discriminate.
Qed.

Lemma puts_all_done shape i k e keys x : nth_error keys k = Some x -> forall ps s h,
  l_src s i = Some (SActive e keys) ->
  exists s', play_events shape s h (map (OPut i k) ps) = (s', done_puts i k ps ++ h).
Proof.
  intros Hk. destruct x as [n c]. induction ps as [|p ps IH]; intros s h Hs; cbn [map play_events].
  - exists s. reflexivity.
  - cbn [step]. rewrite Hs, Hk.
    destruct (IH (cache_put shape s c p) ((OPut i k p, Done) :: h)) as (s' & E).
    { unfold cache_put. destruct (publish_to _ _ p) as [vs es]. exact Hs. }
    exists s'. rewrite E. unfold done_puts. cbn [map List.rev]. rewrite <- app_assoc. reflexivity.
Qed.

Lemma env_ok_puts shape i k ps : forall s, env_ok shape s (map (OPut i k) ps).
Proof. induction ps as [|p ps IH]; intros s; cbn [map env_ok]; auto. Qed.

Lemma env_ok_join shape a b s : env_ok shape s a -> env_ok shape (fst (play_events shape s [] a)) b ->
  env_ok shape s (a ++ b).
Proof.
  revert s. induction a as [|o a IH]; intros s Ha Hb; [exact Hb|].
  cbn [app env_ok] in *. destruct Ha as [A B]. split; [exact A|]. apply IH; [exact B|].
  cbn [play_events] in Hb. destruct (step shape s o) as [s1 x]. cbn [fst].
  enough (Hq : forall os t h1 h2, fst (play_events shape t h1 os) = fst (play_events shape t h2 os)).
  { rewrite (Hq a s1 [] [(o, x)]). exact Hb. }
  induction os as [|q os IHq]; intros t h1 h2; cbn [play_events]; [reflexivity|].
  destruct (step shape t q) as [t1 y]. apply IHq.
Qed.

Lemma puts_done i k ps : puts i k (done_puts i k ps) = ps.
Proof.
  unfold done_puts. induction ps as [|p ps IH] using rev_ind; [reflexivity|].
  rewrite map_app, rev_app_distr. cbn [map List.rev app puts]. rewrite IH, !Nat.eqb_refl. reflexivity.
Qed.
Lemma puts_app i k a b : puts i k (a ++ b) = puts i k b ++ puts i k a.
Proof.
  induction a as [|[o x] a IH]; cbn [app]; [rewrite app_nil_r; reflexivity|].
  destruct o, x; cbn [puts]; try exact IH. rewrite IH, app_assoc. reflexivity.
Qed.
Lemma given_done v i k ps h : given v (done_puts i k ps ++ h) = given v h.
Proof.
  unfold done_puts. induction ps as [|p ps IH] using rev_ind; [reflexivity|].
  rewrite map_app, rev_app_distr. cbn [map List.rev app given]. exact IH.
Qed.
Lemma no_leave_done v i k ps h : ~ In (OLeave v, Done) h -> ~ In (OLeave v, Done) (done_puts i k ps ++ h).
Proof.
  intros H X. apply in_app_or in X as [X|X]; [|exact (H X)].
  unfold done_puts in X. apply in_rev in X. apply in_map_iff in X as (p & E & _). discriminate.
Qed.

(** Publishing is never held back: whatever the viewers do, [ps] is accepted
    and all of it waits for the viewer that does not read. *)
Lemma stalled_viewer shape os s post pre v a name i k n ps :
  keeps_order shape -> env_ok shape live0 os ->
  play_events shape live0 [] os = (s, post ++ (OPlay v a name, Done) :: pre) ->
  ~ In (OLeave v, Done) post -> owner name pre = Some (i, k) ->
  holds i n (post ++ (OPlay v a name, Done) :: pre) = Some k ->
  exists x s' x', l_views s v = Some x /\
    play_events shape live0 [] (os ++ map (OPut i k) ps) = (s', done_puts i k ps ++ post ++ (OPlay v a name, Done) :: pre) /\
    l_views s' v = Some x' /\ v_alive x' = true /\ v_queue x' = v_queue x ++ ps.
Proof.
  intros Hsh He Hr Hnl Ho Hh.
  destruct (run_inv _ _ _ _ Hsh He Hr) as (gc & HS).
  destruct (holds_src _ _ _ _ _ _ HS Hh) as (e & keys & c & Es & Ek).
  destruct (viewer_stream _ _ _ _ _ _ _ _ Hsh He Hr Hnl) as (i1 & k1 & x & Ho1 & Ev & _ & Eq).
  rewrite Ho in Ho1. injection Ho1 as <- <-.
  destruct (puts_all_done shape i k e keys _ Ek ps s (post ++ (OPlay v a name, Done) :: pre) Es) as (s' & E').
  assert (R' : play_events shape live0 [] (os ++ map (OPut i k) ps) =
               (s', (done_puts i k ps ++ post) ++ (OPlay v a name, Done) :: pre)).
  { rewrite play_events_app, Hr, E', app_assoc. reflexivity. }
  assert (He' : env_ok shape live0 (os ++ map (OPut i k) ps)) by (apply env_ok_join; [exact He|apply env_ok_puts]).
  destruct (viewer_stream _ _ _ _ _ _ _ _ Hsh He' R' (no_leave_done _ _ _ _ _ Hnl))
    as (i2 & k2 & x' & Ho2 & Ev' & Al' & Eq').
  rewrite Ho in Ho2. injection Ho2 as <- <-.
  exists x, s', x'. rewrite app_assoc.
  split; [exact Ev|]. split; [exact R'|]. split; [exact Ev'|]. split; [exact Al'|].
  rewrite given_done, puts_app, puts_done, app_assoc, <- Eq, <- app_assoc in Eq'.
  exact (app_inv_head _ _ _ Eq').
Qed.

(** ** The newest group of pictures. *)
Lemma from_last_key_tail m : exists old, m = old ++ from_last_key m.
Proof.
  induction m as [|x r (old & E)]; [exists []; reflexivity|]. cbn [from_last_key].
  destruct (existsb is_keyframe r); [exists (x :: old); cbn; rewrite <- E; reflexivity|].
  destruct (is_keyframe x); [exists []; reflexivity|exists (x :: r); rewrite app_nil_r; reflexivity].
Qed.
Lemma from_last_key_rest m : existsb is_keyframe (tl (from_last_key m)) = false.
Proof.
  induction m as [|x r IH]; [reflexivity|]. cbn [from_last_key].
  destruct (existsb is_keyframe r) eqn:E; [exact IH|]. destruct (is_keyframe x); [exact E|reflexivity].
Qed.
Lemma from_last_key_none m : existsb is_keyframe m = false -> from_last_key m = [].
Proof.
  intros H. destruct m as [|x r]; [reflexivity|]. cbn in *. apply orb_false_iff in H as [A B]. rewrite A, B. reflexivity.
Qed.
Lemma from_last_key_some m : existsb is_keyframe m = true -> from_last_key m <> [].
Proof.
  induction m as [|x r IH]; [discriminate|]. cbn. destruct (existsb is_keyframe r) eqn:E; [intros _; exact (IH eq_refl)|].
  rewrite orb_false_r. intros ->. discriminate.
Qed.
Lemma from_last_key_grow m ps : existsb is_keyframe m = true -> existsb is_keyframe ps = false ->
  from_last_key (m ++ ps) = from_last_key m ++ ps.
Proof.
  intros Hm Hp. induction m as [|x r IH]; [discriminate|]. cbn [app from_last_key existsb] in *.
  rewrite existsb_app, Hp, orb_false_r. destruct (existsb is_keyframe r) eqn:E; [exact (IH eq_refl)|].
  rewrite orb_false_r in Hm. rewrite Hm. reflexivity.
Qed.

Lemma from_last_key_bound K m : (1 <= K)%nat -> key_every K m -> (length (from_last_key m) <= K)%nat.
Proof.
  intros HK H. destruct (from_last_key_tail m) as (old & E). pose proof (from_last_key_rest m) as Hr.
  destruct (from_last_key m) as [|y t]; [cbn; lia|]. cbn [tl length] in *.
  destruct (Nat.le_gt_cases K (length t)) as [Hl|Hl]; [|lia]. exfalso.
  pose proof (firstn_skipn K t) as Ft.
  specialize (H (old ++ [y]) (firstn K t) (skipn K t)). rewrite Ft in H.
  rewrite <- app_assoc in H. cbn [app] in H. specialize (H E). rewrite firstn_length_le in H by exact Hl.
  specialize (H eq_refl). rewrite <- Ft, existsb_app in Hr. apply orb_false_iff in Hr as [Hr _]. congruence.
Qed.

Lemma maybe_length {A} (o : option A) : (length (maybe o) <= 1)%nat.
Proof. destruct o; cbn; lia. Qed.

(** ** Names. *)
Lemma refused_only_if_held shape os s post o x pre : keeps_order shape -> env_ok shape live0 os ->
  play_events shape live0 [] os = (s, post ++ (o, x) :: pre) ->
  match o, x with
  | OPublish _ n, Refused _ | OSrtPublish _ n, Refused _ | OPlay _ _ n, Done => exists j k, holds j n pre = Some k
  | _, _ => True
  end.
Proof.
  intros Hsh He Hr.
  destruct (play_events_split _ _ _ _ _ _ _ _ Hr) as (os1 & os2 & s1 & s2 & Eos & R1 & Est & _).
  rewrite Eos in He. apply env_ok_app in He as [He1 _].
  destruct (run_inv _ _ _ _ Hsh He1 R1) as (gc & HS).
  assert (H : forall n c, l_reg s1 n = Some c -> exists j k, holds j n pre = Some k).
  { intros n c Er. pose proof (s_reg _ _ _ HS n) as R. rewrite Er in R.
    destruct R as (j & k & e & keys & _ & B & C). exists j, k. apply (s_act _ _ _ HS j e keys B). eauto. }
  destruct o; try exact I; cbn in Est.
  - destruct (l_src s1 i); [injection Est as _ <-; exact I|].
    destruct (l_reg s1 name) eqn:E; injection Est as _ <-; [exact (H _ _ E)|exact I].
  - destruct (l_src s1 i); [injection Est as _ <-; exact I|].
    destruct (l_reg s1 name) eqn:E; injection Est as _ <-; [exact (H _ _ E)|exact I].
  - destruct x; try exact I. destruct (l_views s1 v); [discriminate|].
    destruct (l_reg s1 name) eqn:E; [exact (H _ _ E)|discriminate].
Qed.

Lemma last_such_true f l p : last_such f l = Some p -> f p = true.
Proof.
  induction l as [|x l IH]; cbn; [discriminate|]. destruct (last_such f l) eqn:E; [intros H; injection H as <-; auto|].
  destruct (f x) eqn:F; intros H; [injection H as <-; exact F|discriminate].
Qed.

(** Puts make no viewers. *)
Lemma puts_no_views l : forall t0 g t1 g1, (forall v, l_views t0 v = None) ->
  (forall c, inorder (c_subs (l_caches t0 c)) = []) ->
  forall shape : shaper, keeps_order shape ->
  play_events shape t0 g (map (OPut 0 0) l) = (t1, g1) -> forall v, l_views t1 v = None.
Proof.
  induction l as [|p l IH]; intros t0 g t1 g1 G S1 shape Hsh R; cbn [map play_events] in R.
  - injection R as <- _. exact G.
  - destruct (step shape t0 (OPut 0 0 p)) as [t2 o] eqn:Es.
    refine (IH t2 _ _ _ _ _ shape Hsh R); cbn [step] in Es.
    + destruct (l_src t0 0) as [[]|]; try (injection Es as <- _; exact G).
      destruct (nth_error keys 0) as [[]|]; [|injection Es as <- _; exact G].
      injection Es as <- _. unfold cache_put. rewrite S1. cbn. exact G.
    + destruct (l_src t0 0) as [[]|]; try (injection Es as <- _; exact S1).
      destruct (nth_error keys 0) as [[]|]; [|injection Es as <- _; exact S1].
      injection Es as <- _. unfold cache_put. rewrite S1. cbn. intros c. unfold updn.
      destruct (Nat.eqb _ _); [cbn; apply Hsh|apply S1].
Qed.
