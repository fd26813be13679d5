(** One source per name, when no edge pull interferes. *)
From Verif Require Import Base M_Packet M_Cache M_Live S_Cache S_Live L_Cache L_LiveSet L_Live L_Live2.

Definition key_shape (keys : list (list Z * nat)) : Prop :=
  exists n, plain n /\ ((exists c, keys = [(n, c)]) \/ (exists c d, keys = [(n, c); (TS_PREFIX ++ n, d)])).

Definition inv1a (s : live) : Prop := forall i e keys, l_src s i = Some (SActive e keys) ->
  e = false /\ key_shape keys /\ forall n c, In (n, c) keys -> l_reg s n = Some c.
Definition inv1b (s : live) : Prop := forall i b ks, l_src s i = Some (SLeft b ks) -> b = false.
Definition inv1 (s : live) : Prop := inv1a s /\ inv1b s.

Lemma plain_ts n : ~ plain (TS_PREFIX ++ n).
Proof. intros H. exact (H n eq_refl). Qed.

(** A source other than [i] keeps its names when a free plain name is taken. *)
Lemma shape_in keys n c : key_shape keys -> In (n, c) keys ->
  plain n \/ exists m d, n = TS_PREFIX ++ m /\ plain m /\ In (m, d) keys.
Proof.
  intros (m & Hm & [(a & ->)|(a & b & ->)]) Hin.
  - destruct Hin as [E|[]]. injection E as <- _. auto.
  - destruct Hin as [E|[E|[]]]; injection E as <- _; [auto|]. right. exists m, a. split; [reflexivity|].
    split; [exact Hm|left; reflexivity].
Qed.

Lemma inv1b_step shape s o s' x : no_edge_plain o -> inv1 s -> step shape s o = (s', x) -> inv1b s'.
Proof.
  intros Hp [Ha H] Hs.
  assert (U : forall s' i y, l_src s' = updn (l_src s) i (Some y) -> (forall b ks, y = SLeft b ks -> b = false) -> inv1b s').
  { intros s0 i y E Hy j b ks Hj. rewrite E in Hj. unfold updn in Hj. dn j i Hne; [injection Hj as ->; eapply Hy; reflexivity|]. exact (H j b ks Hj). }
  destruct o as [i name|i name|i name|i|i k p|i|i|v addr name|v|v|v]; cbn [step] in Hs; cbn in Hp.
  - destruct (l_src s i) eqn:Ei; [injection Hs as <- <-; exact H|].
    destruct (l_reg s name); injection Hs as <- <-; [exact H|]. eapply U; [reflexivity|discriminate].
  - destruct (l_src s i) eqn:Ei; [injection Hs as <- <-; exact H|].
    destruct (l_reg s name); injection Hs as <- <-; [exact H|]. eapply U; [reflexivity|discriminate].
  - destruct (l_src s i) eqn:Ei; [injection Hs as <- <-; exact H|].
    destruct (l_reg s name), (l_edges s name); injection Hs as <- <-; try exact H. eapply U; [reflexivity|discriminate].
  - contradiction Hp.
  - destruct (l_src s i) as [[]|]; try (injection Hs as <- <-; exact H).
    destruct (nth_error keys k) as [[n c]|]; injection Hs as <- <-; [|exact H].
    intros j b ks. unfold cache_put. destruct (publish_to _ _ p). cbn. apply H.
  - destruct (l_src s i) as [[n|[] keys|b ks|]|] eqn:Ei; injection Hs as <- <-; try exact H.
    + eapply U; [reflexivity|]. intros b ks E. injection E as <- _. reflexivity.
    + destruct (Ha i true keys Ei) as [X _]. discriminate.
    + apply (U _ i SDone); [|discriminate]. cbn. destruct (fold_release (map fst keys) s) as (_ & -> & _). reflexivity.
  - destruct (l_src s i) as [[n|e keys|b ks|]|] eqn:Ei; injection Hs as <- <-; try exact H.
    apply (U _ i SDone); [|discriminate]. cbn. destruct (fold_set_edge ks (if b then fold_left release ks s else s)) as (_ & -> & _).
    destruct b; [|reflexivity]. destruct (fold_release ks s) as (_ & -> & _). reflexivity.
  - destruct (l_views s v); [injection Hs as <- <-; exact H|].
    destruct (l_reg s name); injection Hs as <- <-; exact H.
  - destruct (l_views s v) as [y|]; [|injection Hs as <- <-; exact H].
    destruct (v_alive y); injection Hs as <- <-; exact H.
  - destruct (l_views s v) as [y|]; [|injection Hs as <- <-; exact H].
    destruct (v_alive y); injection Hs as <- <-; exact H.
  - destruct (l_views s v) as [y|]; [|injection Hs as <- <-; exact H].
    destruct (v_alive y); injection Hs as <- <-; exact H.
Qed.
Lemma inv1_step shape gc s h o s' x : no_edge_plain o ->
  sinv gc s h -> inv1 s -> step shape s o = (s', x) -> inv1 s'.
Proof.
  intros Hp HS Hab Hs. split; [|exact (inv1b_step _ _ _ _ _ Hp Hab Hs)]. destruct Hab as [H Hb].
  destruct o as [i name|i name|i name|i|i k p|i|i|v addr name|v|v|v]; cbn [step] in Hs; cbn in Hp.
  - destruct (l_src s i) eqn:Ei; [injection Hs as <- <-; exact H|].
    destruct (l_reg s name) eqn:Er; [injection Hs as <- <-; exact H|]. injection Hs as <- <-.
    intros j e keys Hj. cbn in Hj. unfold updn in Hj. dn j i Hne.
    + injection Hj as <- <-. split; [reflexivity|]. split; [exists name; eauto|].
      intros n c [E|[]]. injection E as <- <-. cbn. unfold updk. rewrite eqb_list_refl. reflexivity.
    + destruct (H j e keys Hj) as (A & B & C). split; [exact A|]. split; [exact B|].
      intros n c Hin. pose proof (C n c Hin) as R. cbn. unfold updk.
      destruct (eqb_list n name) eqn:En; [apply eqb_list_true in En; congruence|exact R].
  - destruct (l_src s i) eqn:Ei; [injection Hs as <- <-; exact H|].
    destruct (l_reg s name) eqn:Er; [injection Hs as <- <-; exact H|]. injection Hs as <- <-.
    intros j e keys Hj. cbn [l_src set_src new_cache] in Hj. unfold updn in Hj. dn j i Hne.
    + injection Hj as <- <-. split; [reflexivity|]. split; [exists name; eauto|].
      intros n c [E|[E|[]]]; injection E as <- <-; cbn [l_reg set_src new_cache]; unfold updk; rewrite eqb_list_refl.
      * rewrite eqb_list_neq; [reflexivity|].
        intros E. exact (ts_prefix_neq name (eq_sym E)).
      * reflexivity.
    + destruct (H j e keys Hj) as (A & B & C). split; [exact A|]. split; [exact B|].
      intros n c Hin. pose proof (C n c Hin) as R. cbn [l_reg set_src new_cache]. unfold updk.
      change (116 :: 115 :: 58 :: 47 :: 47 :: name) with (TS_PREFIX ++ name).
      destruct (eqb_list n (TS_PREFIX ++ name)) eqn:En2.
      * exfalso. apply eqb_list_true in En2. destruct (shape_in _ _ _ B Hin) as [X|(m & d & X & Y & Z)].
        -- subst n. exact (plain_ts _ X).
        -- rewrite En2 in X. apply app_inv_head in X. subst m. rewrite (C _ _ Z) in Er. discriminate.
      * destruct (eqb_list n name) eqn:En; [apply eqb_list_true in En; congruence|exact R].
  - destruct (l_src s i) eqn:Ei; [injection Hs as <- <-; exact H|].
    destruct (l_reg s name), (l_edges s name); injection Hs as <- <-; try exact H.
    intros j e keys Hj. cbn in Hj. unfold updn in Hj. dn j i Hne; [discriminate|]. exact (H j e keys Hj).
  - contradiction Hp.
  - destruct (l_src s i) as [[]|]; try (injection Hs as <- <-; exact H).
    destruct (nth_error keys k) as [[n c]|]; injection Hs as <- <-; [|exact H].
    intros j e keys'. unfold cache_put. destruct (publish_to _ _ p). cbn. apply H.
  - destruct (l_src s i) as [[n|[] keys|b ks|]|] eqn:Ei; injection Hs as <- <-; try exact H.
    + intros j e keys' Hj. cbn in Hj. unfold updn in Hj. dn j i Hne; [discriminate|]. exact (H j e keys' Hj).
    + destruct (H i true keys Ei) as [X _]. discriminate.
    + intros j e keys' Hj. cbn in Hj. destruct (fold_release (map fst keys) s) as (R & R2 & _).
      rewrite R2 in Hj. unfold updn in Hj. dn j i Hne; [discriminate|].
      destruct (H j e keys' Hj) as (A & B & C). split; [exact A|]. split; [exact B|].
      intros n c Hin. cbn. rewrite R. rewrite (C n c Hin).
      destruct (existsb (eqb_list n) (map fst keys)) eqn:Eb; [|reflexivity]. exfalso.
      apply existsb_exists in Eb as (n' & Hin' & En). apply eqb_list_true in En. subst n'.
      apply in_map_iff in Hin' as ((n' & d) & En & Hin'). cbn in En. subst n'.
      destruct (H i false keys Ei) as (_ & _ & C'). pose proof (C' n d Hin') as E1. rewrite (C n c Hin) in E1.
      injection E1 as <-.
      apply In_nth_error in Hin as [k1 H1]. apply In_nth_error in Hin' as [k2 H2].
      destruct (s_act _ _ _ HS j e keys' Hj) as [_ G1]. destruct (s_act _ _ _ HS i false keys Ei) as [_ G2].
      specialize (G1 k1). specialize (G2 k2). rewrite H1 in G1. rewrite H2 in G2. cbn in G1, G2.
      destruct (s_inj _ _ _ HS _ _ _ _ _ G1 G2). contradiction.
  - destruct (l_src s i) as [[n|e keys|b ks|]|] eqn:Ei; injection Hs as <- <-; try exact H.
    rewrite (Hb i b ks Ei) in *. destruct (fold_set_edge ks s) as (R1 & R2 & _).
    intros j e' keys' Hj. cbn [set_src l_src l_reg] in *. rewrite R2 in Hj. rewrite R1. unfold updn in Hj. dn j i Hne; [discriminate|]. exact (H j e' keys' Hj).
  - destruct (l_views s v); [injection Hs as <- <-; exact H|].
    destruct (l_reg s name); injection Hs as <- <-; exact H.
  - destruct (l_views s v) as [y|]; [|injection Hs as <- <-; exact H].
    destruct (v_alive y); injection Hs as <- <-; exact H.
  - destruct (l_views s v) as [y|]; [|injection Hs as <- <-; exact H].
    destruct (v_alive y); injection Hs as <- <-; exact H.
  - destruct (l_views s v) as [y|]; [|injection Hs as <- <-; exact H].
    destruct (v_alive y); injection Hs as <- <-; exact H.
Qed.

Lemma inv1_run shape os : keeps_order shape -> forall gc s h s' h',
  Forall no_edge_plain os -> env_ok shape s os -> tinv s h -> sinv gc s h -> vinv gc s h -> inv1 s ->
  play_events shape s h os = (s', h') -> inv1 s' /\ exists gc', sinv gc' s' h' /\ vinv gc' s' h'.
Proof.
  intros Hsh. induction os as [|o os IH]; intros gc s h s' h' Hp He HT HS HV H1 Hr; cbn in *.
  - injection Hr as <- <-. eauto.
  - destruct He as [He1 He2]. inversion Hp; subst. destruct (step shape s o) as [s1 x] eqn:Es. cbn in He2.
    destruct (step_inv _ gc _ h _ _ _ Hsh He1 HT HS HV Es) as (gc' & HS' & HV').
    exact (IH gc' s1 _ s' h' H3 He2 (tinv_step _ _ _ _ _ _ Es HT) HS' HV' (inv1_step _ _ _ _ _ _ _ H2 HS H1 Es) Hr).
Qed.

Lemma holds_reg gc s h i n k : sinv gc s h -> inv1 s -> holds i n h = Some k ->
  exists e keys c, l_src s i = Some (SActive e keys) /\ nth_error keys k = Some (n, c) /\ l_reg s n = Some c.
Proof.
  intros HS [H1 _] Hh. destruct (l_src s i) as [[n'|e keys|b ks|]|] eqn:Ei.
  - destruct (s_open _ _ _ HS i n' Ei) as (_ & B & _). rewrite B in Hh. discriminate.
  - destruct (s_act _ _ _ HS i e keys Ei) as [A _]. apply A in Hh as [c Hc].
    exists e, keys, c. split; [reflexivity|]. split; [exact Hc|].
    destruct (H1 i e keys Ei) as (_ & _ & C). apply C. eapply nth_error_In; eauto.
  - rewrite (s_left _ _ _ HS i b ks Ei) in Hh. discriminate.
  - rewrite (s_done _ _ _ HS i Ei) in Hh. discriminate.
  - destruct (s_none _ _ _ HS i Ei) as (_ & B & _). rewrite B in Hh. discriminate.
Qed.

Lemma holds_unique gc s h i j n k m : sinv gc s h -> inv1 s ->
  holds i n h = Some k -> holds j n h = Some m -> i = j /\ k = m.
Proof.
  intros HS H1 Hi Hj.
  destruct (holds_reg _ _ _ _ _ _ HS H1 Hi) as (e & keys & c & A & B & C).
  destruct (holds_reg _ _ _ _ _ _ HS H1 Hj) as (e' & keys' & c' & A' & B' & C').
  rewrite C in C'. injection C' as <-.
  destruct (s_act _ _ _ HS i e keys A) as [_ G1]. destruct (s_act _ _ _ HS j e' keys' A') as [_ G2].
  specialize (G1 k). specialize (G2 m). rewrite B in G1. rewrite B' in G2. cbn in G1, G2.
  exact (s_inj _ _ _ HS _ _ _ _ _ G1 G2).
Qed.

Lemma reg_holds gc s h n : sinv gc s h -> inv1 s ->
  match l_reg s n with
  | Some _ => exists i k, owner n h = Some (i, k) /\ holds i n h = Some k
  | None => owner n h = None /\ forall i, holds i n h = None
  end.
Proof.
  intros HS H1. pose proof (s_reg _ _ _ HS n) as R. destruct (l_reg s n) as [c|] eqn:Er.
  - destruct R as (i & k & e & keys & A & B & C). exists i, k. split; [exact A|].
    destruct (s_act _ _ _ HS i e keys B) as [X _]. apply X. eauto.
  - split; [exact R|]. intros i. destruct (holds i n h) eqn:Eh; [|reflexivity].
    destruct (holds_reg _ _ _ _ _ _ HS H1 Eh) as (_ & _ & c & _ & _ & X). congruence.
Qed.

Lemma inv10 : inv1 live0.
Proof. split; [intros i e keys H|intros i b ks H]; discriminate. Qed.

Lemma one_source shape os s h : keeps_order shape -> env_ok shape live0 os -> Forall no_edge_plain os ->
  play_events shape live0 [] os = (s, h) ->
  (forall n i j k m, holds i n h = Some k -> holds j n h = Some m -> i = j) /\
  (forall n i k, owner n h = Some (i, k) <-> holds i n h = Some k).
Proof.
  intros Hsh He Hp Hr. destruct inv0 as [HS0 HV0].
  destruct (inv1_run _ _ Hsh _ _ _ _ _ Hp He tinv0 HS0 HV0 inv10 Hr) as (H1 & gc & HS & HV). split.
  - intros n i j k m Hi Hj. exact (proj1 (holds_unique _ _ _ _ _ _ _ _ HS H1 Hi Hj)).
  - intros n i k. pose proof (reg_holds _ _ _ n HS H1) as R. destruct (l_reg s n).
    + destruct R as (j & m & R1 & R2). rewrite R1. split.
      * intros E. injection E as <- <-. exact R2.
      * intros E. destruct (holds_unique _ _ _ _ _ _ _ _ HS H1 R2 E) as [-> ->]. reflexivity.
    + destruct R as [R1 R2]. rewrite R1, R2. split; discriminate.
Qed.

Lemma events_outcomes shape os s post o x pre : keeps_order shape -> env_ok shape live0 os -> Forall no_edge_plain os ->
  play_events shape live0 [] os = (s, post ++ (o, x) :: pre) ->
  match o, x with
  | OPublish _ n, Done | OSrtPublish _ n, Done => forall j, holds j n pre = None
  | OPublish _ n, Refused c => c = ERROR_HTTP_HAS_SOURCE /\ exists j k, holds j n pre = Some k
  | OSrtPublish _ n, Refused c => c = ERROR_RTMP_HAS_SOURCE /\ exists j k, holds j n pre = Some k
  | OPlay _ _ n, Done => exists j k, holds j n pre = Some k
  | OPlay _ _ n, Refused c => c = ERROR_STREAM_SOURCE_NOT_EXITS /\ forall j, holds j n pre = None
  | _, _ => True
  end.
Proof.
  intros Hsh He Hp Hr. destruct inv0 as [HS0 HV0].
  destruct (play_events_split _ _ _ _ _ _ _ _ Hr) as (os1 & os2 & s1 & s2 & Eos & R1 & Est & R2).
  rewrite Eos in He, Hp. apply env_ok_app in He as [He1 He2]. apply Forall_app in Hp as [Hp1 Hp2].
  destruct (inv1_run _ _ Hsh _ _ _ _ _ Hp1 He1 tinv0 HS0 HV0 inv10 R1) as (H1 & gc & HS & HV).
  destruct o as [i name|i name|i name|i|i k p|i|i|v addr name|v|v|v]; try (destruct x; exact I); cbn [step] in Est.
  - pose proof (reg_holds _ _ _ name HS H1) as R. destruct (l_src s1 i); [injection Est as _ <-; exact I|].
    destruct (l_reg s1 name); injection Est as _ <-.
    + split; [reflexivity|]. destruct R as (a & b & _ & R). eauto.
    + exact (proj2 R).
  - pose proof (reg_holds _ _ _ name HS H1) as R. destruct (l_src s1 i); [injection Est as _ <-; exact I|].
    destruct (l_reg s1 name); injection Est as _ <-.
    + split; [reflexivity|]. destruct R as (a & b & _ & R). eauto.
    + exact (proj2 R).
  - pose proof (reg_holds _ _ _ name HS H1) as R. destruct (l_views s1 v); [injection Est as _ <-; exact I|].
    destruct (l_reg s1 name); injection Est as _ <-.
    + destruct R as (a & b & _ & R). eauto.
    + split; [reflexivity|exact (proj2 R)].
Qed.

(** A refused or ignored event changes nothing. *)
Lemma refused_same shape s o s' c : step shape s o = (s', Refused c) -> s' = s.
Proof.
  intros H. destruct o as [i name|i name|i name|i|i k p|i|i|v addr name|v|v|v]; cbn [step] in H;
    repeat match type of H with
    | context [match ?e with _ => _ end] => destruct e
    end; try discriminate H; congruence.
Qed.
