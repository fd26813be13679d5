(** The invariant behind the live-stream theorems, continued, and its consequences. *)
From Verif Require Import Base M_Packet M_Cache M_Live S_Cache S_Live L_Cache L_LiveSet L_Live.
From Coq Require Import Sorted.

Lemma ts_prefix_neq n : TS_PREFIX ++ n <> n.
Proof. intros E. apply (f_equal (@length Z)) in E. rewrite app_length in E. cbn in E. lia. Qed.

Lemma key2_iff (name name2 : list Z) (c d : nat) n k :
  (exists x, nth_error [(name, c); (name2, d)] k = Some (n, x)) <->
  (n = name /\ k = 0%nat) \/ (n = name2 /\ k = 1%nat).
Proof.
  destruct k as [|[|k]]; cbn.
  - split; [intros (x & E); injection E as -> _; auto|intros [[-> _]|[_ E]]; [eauto|discriminate]].
  - split; [intros (x & E); injection E as -> _; auto|intros [[_ E]|[-> _]]; [discriminate|eauto]].
  - split; [intros (x & E); destruct k; discriminate|intros [[_ E]|[_ E]]; discriminate].
Qed.

Lemma srt_inv gc s h i name :
  l_src s i = None -> sinv gc s h -> vinv gc s h ->
  let s1 := new_cache s name (SGop gop0) in
  let s2 := new_cache s1 (TS_PREFIX ++ name) (STs tsc0) in
  let s' := set_src s2 i (SActive false [(name, l_next s); (TS_PREFIX ++ name, l_next s1)]) in
  let gc' := setg (setg gc i 0 (l_next s)) i 1 (S (l_next s)) in
  sinv gc' s' ((OSrtPublish i name, Done) :: h) /\ vinv gc' s' ((OSrtPublish i name, Done) :: h).
Proof.
  intros Hi HS HV s1 s2 s' gc'.
  destruct (s_none _ _ _ HS i Hi) as (I0 & I1 & I2 & I3).
  assert (Hholds : forall j n, holds j n ((OSrtPublish i name, Done) :: h) =
     if Nat.eqb j i && eqb_list n name then Some 0%nat
     else if Nat.eqb j i && eqb_list n (TS_PREFIX ++ name) then Some 1%nat else holds j n h) by reflexivity.
  assert (Howner : forall n, owner n ((OSrtPublish i name, Done) :: h) =
     if eqb_list n name then Some (i, 0%nat)
     else if eqb_list n (TS_PREFIX ++ name) then Some (i, 1%nat) else owner n h).
  { intros n. pose proof (Hholds i n) as X. rewrite Nat.eqb_refl in X. cbn [andb] in X. rewrite I1 in X.
    cbn [owner]. rewrite X. destruct (eqb_list n name); [reflexivity|].
    destruct (eqb_list n (TS_PREFIX ++ name)); reflexivity. }
  assert (Hlt : forall j m c, gc j m = Some c -> c <> l_next s /\ c <> S (l_next s)).
  { intros j m c Hc. pose proof (s_lt _ _ _ HS _ _ _ Hc). lia. }
  assert (Hgc : forall j k, gc' j k = if Nat.eqb j i then match k with
      | O => Some (l_next s) | S O => Some (S (l_next s)) | _ => None end else gc j k).
  { intros j k. unfold gc', setg. destruct (Nat.eqb_spec j i) as [->|]; [|reflexivity]. cbn.
    destruct k as [|[|k]]; cbn; [reflexivity|reflexivity|apply I2]. }
  assert (Hneq := ts_prefix_neq name).
  split.
  - constructor.
    + intros j Hj. unfold s' in Hj. cbn in Hj. unfold updn in Hj. dn j i Hne; [discriminate|].
      destruct (s_none _ _ _ HS j Hj) as (A & B & C & D). split; [exact A|].
      split; [intros n; rewrite Hholds, (proj2 (Nat.eqb_neq j i) Hne); cbn; apply B|].
      split; [intros k; rewrite Hgc, (proj2 (Nat.eqb_neq j i) Hne); apply C|]. exact D.
    + intros j n' Hj. unfold s' in Hj. cbn in Hj. unfold updn in Hj. dn j i Hne; [discriminate|].
      destruct (s_open _ _ _ HS j n' Hj) as (A & B & C & D). split; [exact A|].
      split; [intros n; rewrite Hholds, (proj2 (Nat.eqb_neq j i) Hne); cbn; apply B|].
      split; [intros k; rewrite Hgc, (proj2 (Nat.eqb_neq j i) Hne); apply C|]. exact D.
    + intros j e' keys Hj. unfold s' in Hj. cbn in Hj. unfold updn in Hj.
      dn j i Hne.
      * injection Hj as <- <-. split.
        -- intros n k. rewrite Hholds, Nat.eqb_refl, I1. cbn [andb].
           rewrite key2_iff.
           destruct (eqb_list n name) eqn:En; [|destruct (eqb_list n (TS_PREFIX ++ name)) eqn:En2].
           ++ apply eqb_list_true in En. subst n. split.
              ** intros X; injection X as <-; auto.
              ** intros [[_ ->]|[X _]]; [reflexivity|]. symmetry in X. contradiction.
           ++ apply eqb_list_true in En2. apply eqb_list_false in En. subst n. split.
              ** intros X; injection X as <-; auto.
              ** intros [[X _]|[_ ->]]; [contradiction|reflexivity].
           ++ apply eqb_list_false in En. apply eqb_list_false in En2. split; [discriminate|].
              intros [[X _]|[X _]]; contradiction.
        -- intros k. rewrite Hgc, Nat.eqb_refl. destruct k as [|[|k]]; [reflexivity|reflexivity|].
           destruct k; reflexivity.
      * destruct (s_act _ _ _ HS j e' keys Hj) as [A B]. split.
        -- intros n k. rewrite Hholds, (proj2 (Nat.eqb_neq j i) Hne). cbn. apply A.
        -- intros k. rewrite Hgc, (proj2 (Nat.eqb_neq j i) Hne). apply B.
    + intros j Hj n. unfold s' in Hj. cbn in Hj. unfold updn in Hj. dn j i Hne; [discriminate|].
      rewrite Hholds, (proj2 (Nat.eqb_neq j i) Hne). cbn. exact (s_done _ _ _ HS j Hj n).
    + intros j b ks Hj n. unfold s' in Hj. cbn in Hj. unfold updn in Hj. dn j i Hne; [discriminate|].
      rewrite Hholds, (proj2 (Nat.eqb_neq j i) Hne). cbn. exact (s_left _ _ _ HS j b ks Hj n).
    + intros j k c. rewrite Hgc. unfold s'. cbn [l_next set_src new_cache s2 s1].
      destruct (Nat.eqb j i).
      * destruct k as [|[|k]]; intros X; try discriminate; injection X as <-; unfold s2, s1; cbn; lia.
      * intros Hc. pose proof (s_lt _ _ _ HS _ _ _ Hc). unfold s2, s1; cbn. lia.
    + intros j k j' k' c. rewrite !Hgc.
      destruct (Nat.eqb_spec j i) as [->|E1]; destruct (Nat.eqb_spec j' i) as [->|E2]; intros H1 H2.
      * destruct k as [|[|k]], k' as [|[|k']]; try discriminate; auto; injection H1 as <-; injection H2; lia.
      * exfalso. destruct (Hlt _ _ _ H2) as [X Y]. destruct k as [|[|k]]; try discriminate; injection H1 as <-; auto.
      * exfalso. destruct (Hlt _ _ _ H1) as [X Y]. destruct k' as [|[|k']]; try discriminate; injection H2 as <-; auto.
      * exact (s_inj _ _ _ HS _ _ _ _ _ H1 H2).
    + intros j k c Hc. cbn [puts]. rewrite Hgc in Hc. unfold s', s2, s1. cbn. unfold updn.
      destruct (Nat.eqb_spec j i) as [->|E1].
      * rewrite I3. destruct k as [|[|k]]; [..|discriminate]; injection Hc as <-.
        -- replace (Nat.eqb (l_next s) (S (l_next s))) with false by (symmetry; apply Nat.eqb_neq; lia).
           rewrite Nat.eqb_refl. cbn. exists gop0. split; [reflexivity|exact gop_inv0].
        -- rewrite Nat.eqb_refl. cbn. exists tsc0. split; [reflexivity|exact tsc_inv0].
      * destruct (Hlt _ _ _ Hc) as [X Y]. rewrite (proj2 (Nat.eqb_neq _ _) X).
        pose proof (proj2 (Nat.eqb_neq _ _) Y) as Z. cbn [Nat.eqb] in Z. rewrite Z.
        exact (s_store _ _ _ HS _ _ _ Hc).
    + intros n. rewrite Howner. unfold s', s2, s1. cbn [l_reg l_src set_src new_cache l_next].
      unfold updk. destruct (eqb_list n (TS_PREFIX ++ name)) eqn:En2.
      * pose proof (eqb_list_true _ _ En2) as X. rewrite (eqb_list_neq n name) by (rewrite X; exact Hneq).
        eexists i, 1%nat, _, _. split; [reflexivity|]. split; [unfold updn; rewrite Nat.eqb_refl; reflexivity|].
        rewrite X. reflexivity.
      * destruct (eqb_list n name) eqn:En.
        -- apply eqb_list_true in En. subst n. eexists i, 0%nat, _, _. split; [reflexivity|].
           split; [unfold updn; rewrite Nat.eqb_refl; reflexivity|reflexivity].
        -- pose proof (s_reg _ _ _ HS n) as R. destruct (l_reg s n) as [c|]; [|exact R].
           destruct R as (j & k & e' & keys & A & B & C). exists j, k, e', keys. split; [exact A|].
           split; [|exact C]. unfold updn. destruct (Nat.eqb_spec j i) as [->|]; [congruence|exact B].
  - apply vinv_src with (gc := gc) (s := s); auto.
    + intros j k c Hc. rewrite Hgc. destruct (Nat.eqb_spec j i) as [->|]; [|exact Hc]. rewrite I2 in Hc. discriminate.
    + intros c. unfold s', s2, s1. cbn [l_caches set_src new_cache l_next]. unfold updn.
      destruct (Nat.eqb_spec c (S (l_next s))) as [->|]; [|destruct (Nat.eqb_spec c (l_next s)) as [->|]].
      * right. split; [reflexivity|]. intros j k Hc. destruct (Hlt _ _ _ Hc) as [_ Y]. exact (Y eq_refl).
      * right. split; [reflexivity|]. intros j k Hc. destruct (Hlt _ _ _ Hc) as [Y _]. exact (Y eq_refl).
      * left. reflexivity.
Qed.

Lemma edge_start_inv gc s h i name :
  l_src s i = None -> sinv gc s h -> vinv gc s h ->
  let s' := set_edge (set_src s i (SOpening name)) name (Some i) in
  sinv gc s' ((OEdgeStart i name, Done) :: h) /\ vinv gc s' ((OEdgeStart i name, Done) :: h).
Proof.
  intros Hi HS HV s'. destruct (s_none _ _ _ HS i Hi) as (I0 & I1 & I2 & I3). split.
  - constructor; cbn.
    + intros j Hj. unfold updn in Hj. dn j i Hne; [discriminate|]. exact (s_none _ _ _ HS j Hj).
    + intros j n Hj. unfold updn in Hj. dn j i Hne; [|exact (s_open _ _ _ HS j n Hj)].
      injection Hj as <-. auto.
    + intros j e keys Hj. unfold updn in Hj. dn j i Hne; [discriminate|]. exact (s_act _ _ _ HS j e keys Hj).
    + intros j Hj. unfold updn in Hj. dn j i Hne; [discriminate|]. exact (s_done _ _ _ HS j Hj).
    + intros j b ks Hj. unfold updn in Hj. dn j i Hne; [discriminate|]. exact (s_left _ _ _ HS j b ks Hj).
    + exact (s_lt _ _ _ HS).
    + exact (s_inj _ _ _ HS).
    + exact (s_store _ _ _ HS).
    + intros n. pose proof (s_reg _ _ _ HS n) as R. destruct (l_reg s n); [|exact R].
      destruct R as (j & k & e & keys & A & B & C). exists j, k, e, keys. split; [exact A|]. split; [|exact C].
      unfold updn. destruct (Nat.eqb_spec j i) as [->|]; [congruence|exact B].
  - apply vinv_src with (gc := gc) (s := s); auto.
Qed.

(** ** OEnd. *)
Lemma fold_release ks : forall s,
  (forall n, l_reg (fold_left release ks s) n = if existsb (eqb_list n) ks then None else l_reg s n) /\
  l_src (fold_left release ks s) = l_src s /\ l_next (fold_left release ks s) = l_next s /\
  l_caches (fold_left release ks s) = l_caches s /\ l_views (fold_left release ks s) = l_views s /\
  l_edges (fold_left release ks s) = l_edges s.
Proof.
  induction ks as [|k ks IH]; intros s; cbn; [auto 10|].
  destruct (IH (release s k)) as (A & B & C & D & E & F). rewrite B, C, D, E, F. cbn.
  split; [|auto]. intros n. rewrite A. cbn. unfold updk.
  destruct (eqb_list n k); cbn; [destruct (existsb _ ks); reflexivity|reflexivity].
Qed.
Lemma fold_set_edge ks : forall s,
  l_reg (fold_left (fun a k => set_edge a k None) ks s) = l_reg s /\
  l_src (fold_left (fun a k => set_edge a k None) ks s) = l_src s /\
  l_next (fold_left (fun a k => set_edge a k None) ks s) = l_next s /\
  l_caches (fold_left (fun a k => set_edge a k None) ks s) = l_caches s /\
  l_views (fold_left (fun a k => set_edge a k None) ks s) = l_views s.
Proof.
  induction ks as [|k ks IH]; intros s; cbn; [auto 10|].
  destruct (IH (set_edge s k None)) as (A & B & C & D & E). rewrite A, B, C, D, E. cbn. auto.
Qed.

Definition over (x : source) : Prop := x = SDone \/ exists b ks, x = SLeft b ks.
Lemma end_inv gc s h i keys s0 x0 : over x0 ->
  (exists e, l_src s i = Some (SActive e keys)) \/ (exists n, l_src s i = Some (SOpening n) /\ keys = []) ->
  (forall n, l_reg s0 n = if existsb (eqb_list n) (map fst keys) then None else l_reg s n) ->
  l_src s0 = l_src s -> l_next s0 = l_next s -> l_caches s0 = l_caches s -> l_views s0 = l_views s ->
  sinv gc s h -> vinv gc s h ->
  sinv gc (set_src s0 i x0) ((OEnd i, Done) :: h) /\ vinv gc (set_src s0 i x0) ((OEnd i, Done) :: h).
Proof.
  intros Hx Hi E1 E2 E3 E4 E5 HS HV.
  assert (Hk : forall n, holds i n h = None <-> existsb (eqb_list n) (map fst keys) = false).
  { intros n. destruct Hi as [[e Hi]|(n0 & Hi & ->)].
    - destruct (s_act _ _ _ HS i e keys Hi) as [A _]. split.
      + intros Hn. apply not_true_iff_false. intros Eb. apply existsb_exists in Eb as (n' & Hin & En).
        apply eqb_list_true in En. subst n'. apply in_map_iff in Hin as ((n' & c) & En & Hin). cbn in En. subst n'.
        apply In_nth_error in Hin as [k Hk]. assert (X : holds i n h = Some k) by (apply A; eauto). congruence.
      + intros Eb. destruct (holds i n h) as [k|] eqn:Eh; [|reflexivity].
        apply A in Eh as [c Hc]. apply nth_error_In in Hc. apply (in_map fst) in Hc. cbn in Hc.
        assert (X : existsb (eqb_list n) (map fst keys) = true).
        { apply existsb_exists. exists n. split; [exact Hc|apply eqb_list_refl]. }
        congruence.
    - destruct (s_open _ _ _ HS i n0 Hi) as (_ & B & _). rewrite B. cbn. split; auto. }
  split.
  - constructor; cbn; rewrite ?E2, ?E3, ?E4.
    + intros j Hj. unfold updn in Hj. dn j i Hne; [discriminate|].
      destruct (s_none _ _ _ HS j Hj) as (A & B & C & D). auto.
    + intros j n Hj. unfold updn in Hj. dn j i Hne; [destruct Hx as [->|(b & ks & ->)]; discriminate|].
      destruct (s_open _ _ _ HS j n Hj) as (A & B & C & D). auto.
    + intros j e ks Hj. unfold updn in Hj. dn j i Hne; [destruct Hx as [->|(b & ks' & ->)]; discriminate|].
      exact (s_act _ _ _ HS j e ks Hj).
    + intros j Hj n. unfold updn in Hj. dn j i Hne; [reflexivity|]. exact (s_done _ _ _ HS j Hj n).
    + intros j b ks Hj n. unfold updn in Hj. dn j i Hne; [reflexivity|]. exact (s_left _ _ _ HS j b ks Hj n).
    + exact (s_lt _ _ _ HS).
    + exact (s_inj _ _ _ HS).
    + exact (s_store _ _ _ HS).
    + intros n. rewrite E1. destruct (existsb (eqb_list n) (map fst keys)) eqn:Eb.
      * destruct (holds i n h) eqn:Eh; [reflexivity|]. apply Hk in Eh. congruence.
      * rewrite (proj2 (Hk n) Eb). pose proof (s_reg _ _ _ HS n) as R. destruct (l_reg s n) as [c|]; [|exact R].
        destruct R as (j & k & e & ks & A & B & C). exists j, k, e, ks. split; [exact A|]. split; [|exact C].
        unfold updn. destruct (Nat.eqb_spec j i) as [->|]; [|exact B]. exfalso.
        destruct (s_act _ _ _ HS i e ks B) as [X _].
        assert (Y : holds i n h = Some k) by (apply X; eauto).
        rewrite (proj2 (Hk n) Eb) in Y. discriminate.
  - apply vinv_src with (gc := gc) (s := s); auto; cbn.
    + intros v. rewrite E5. reflexivity.
    + intros c. rewrite E4. auto.
Qed.

(** ** OEdgeDrop. *)
Record tinv (s : live) (h : hist) : Prop := mktinv {
  t_none : forall i, l_src s i = None -> took i h = None;
  t_open : forall i n, l_src s i = Some (SOpening n) -> edge_name i h = Some n /\ took i h = None;
  t_act : forall i ks, l_src s i = Some (SActive true ks) -> exists n c, ks = [(n, c)] /\ took i h = Some n;
  t_left : forall i b ks, l_src s i = Some (SLeft b ks) -> if b then exists n, ks = [n] /\ took i h = Some n else took i h = None
}.
Lemma tinv0 : tinv live0 [].
Proof. constructor; cbn; try discriminate; auto. Qed.
Lemma tinv_ext s s' h o x : l_src s' = l_src s -> (forall i, edge_name i ((o, x) :: h) = edge_name i h) ->
  (forall i, took i ((o, x) :: h) = took i h) -> tinv s h -> tinv s' ((o, x) :: h).
Proof.
  intros E1 E2 E3 [A B C D]. constructor; rewrite E1; intros i; rewrite ?E2, ?E3.
  - apply A.
  - apply B.
  - apply C.
  - apply D.
Qed.
(** One source changes. *)
Lemma tinv_upd s s' h o i y : l_src s' = updn (l_src s) i (Some y) ->
  (forall j, j <> i -> edge_name j ((o, Done) :: h) = edge_name j h) -> (forall j, j <> i -> took j ((o, Done) :: h) = took j h) ->
  match y with
  | SOpening n => edge_name i ((o, Done) :: h) = Some n /\ took i ((o, Done) :: h) = None
  | SActive true ks => exists n c, ks = [(n, c)] /\ took i ((o, Done) :: h) = Some n
  | SLeft true ks => exists n, ks = [n] /\ took i ((o, Done) :: h) = Some n
  | SLeft false _ => took i ((o, Done) :: h) = None
  | _ => True
  end -> tinv s h -> tinv s' ((o, Done) :: h).
Proof.
  intros E1 E2 E3 Hy [A B C D]. constructor; rewrite E1; intros j; unfold updn; destruct (Nat.eqb_spec j i) as [->|Hne].
  - discriminate.
  - rewrite E3 by exact Hne. apply A.
  - intros n E. injection E as ->. exact Hy.
  - intros n. rewrite E2, E3 by exact Hne. apply B.
  - intros ks E. injection E as ->. exact Hy.
  - intros ks. rewrite E3 by exact Hne. apply C.
  - intros b ks E. injection E as ->. destruct b; exact Hy.
  - intros b ks. rewrite E3 by exact Hne. apply D.
Qed.
Lemma tinv_step shape s h o s' x : step shape s o = (s', x) -> tinv s h -> tinv s' ((o, x) :: h).
Proof.
  intros Hs H.
  assert (Q : forall o x, x <> Done -> tinv s ((o, x) :: h)).
  { intros o0 x0 Hx. eapply tinv_ext; [reflexivity| | |exact H]; intros j; destruct o0, x0; cbn; try reflexivity; congruence. }
  assert (V : forall o s', l_src s' = l_src s -> (forall i n, o <> OEdgeStart i n) -> (forall i, o <> OEdgeOpen i) -> tinv s' ((o, Done) :: h)).
  { intros o0 s0 E H1 H2. eapply tinv_ext; [exact E| | |exact H]; intros j; destruct o0; cbn; try reflexivity; exfalso; [eapply H1|eapply H2]; reflexivity. }
  destruct o as [i name|i name|i name|i|i k p|i|i|v addr name|v|v|v]; cbn [step] in Hs.
  - destruct (l_src s i) eqn:Ei; [injection Hs as <- <-; apply Q; discriminate|].
    destruct (l_reg s name); injection Hs as <- <-; [apply Q; discriminate|].
    eapply (tinv_upd s); [reflexivity|reflexivity|reflexivity|exact I|exact H].
  - destruct (l_src s i) eqn:Ei; [injection Hs as <- <-; apply Q; discriminate|].
    destruct (l_reg s name); injection Hs as <- <-; [apply Q; discriminate|].
    eapply (tinv_upd s); [reflexivity|reflexivity|reflexivity|exact I|exact H].
  - destruct (l_src s i) eqn:Ei; [injection Hs as <- <-; apply Q; discriminate|].
    destruct (l_reg s name); [injection Hs as <- <-; apply Q; discriminate|].
    destruct (l_edges s name); injection Hs as <- <-; [apply Q; discriminate|].
    eapply (tinv_upd s); [reflexivity| |reflexivity| |exact H].
    + intros j Hj. cbn. apply Nat.eqb_neq in Hj. rewrite Hj. reflexivity.
    + cbn. rewrite Nat.eqb_refl. split; [reflexivity|]. exact (t_none _ _ H i Ei).
  - destruct (l_src s i) as [[n|e ks|b ks|]|] eqn:Ei; try (injection Hs as <- <-; apply Q; discriminate). injection Hs as <- <-.
    eapply (tinv_upd s); [reflexivity|reflexivity| | |exact H].
    + intros j Hj. cbn. apply Nat.eqb_neq in Hj. rewrite Hj. reflexivity.
    + eexists _, _. split; [reflexivity|]. cbn. rewrite Nat.eqb_refl. exact (proj1 (t_open _ _ H i n Ei)).
  - destruct (l_src s i) as [[n|e ks|b ks|]|] eqn:Ei; try (injection Hs as <- <-; apply Q; discriminate).
    destruct (nth_error ks k) as [[n c]|]; injection Hs as <- <-; [|apply Q; discriminate].
    apply V; try discriminate. unfold cache_put. destruct (publish_to _ _ p). reflexivity.
  - destruct (l_src s i) as [[n|[] ks|b ks|]|] eqn:Ei; try (injection Hs as <- <-; apply Q; discriminate); injection Hs as <- <-.
    + eapply (tinv_upd s); [reflexivity|reflexivity|reflexivity| |exact H]. exact (proj2 (t_open _ _ H i n Ei)).
    + eapply (tinv_upd s); [|reflexivity|reflexivity| |exact H].
      * cbn [set_src l_src]. destruct (fold_set_edge (map fst ks) (fold_left release (map fst ks) s)) as (_ & -> & _).
        destruct (fold_release (map fst ks) s) as (_ & -> & _). reflexivity.
      * destruct (t_act _ _ H i ks Ei) as (n & c & -> & E). exists n. auto.
    + eapply (tinv_upd s _ _ _ i SDone); [|reflexivity|reflexivity|exact I|exact H].
      cbn [set_src l_src]. destruct (fold_release (map fst ks) s) as (_ & -> & _). reflexivity.
  - destruct (l_src s i) as [[n|e ks|b ks|]|] eqn:Ei; try (injection Hs as <- <-; apply Q; discriminate); injection Hs as <- <-.
    eapply (tinv_upd s _ _ _ i SDone); [|reflexivity|reflexivity|exact I|exact H].
    cbn [set_src l_src]. destruct (fold_set_edge ks (if b then fold_left release ks s else s)) as (_ & -> & _).
    destruct b; [|reflexivity]. destruct (fold_release ks s) as (_ & -> & _). reflexivity.
  - destruct (l_views s v); [injection Hs as <- <-; apply Q; discriminate|].
    destruct (l_reg s name); injection Hs as <- <-; [|apply Q; discriminate]. apply V; try discriminate; reflexivity.
  - destruct (l_views s v) as [y|]; [|injection Hs as <- <-; apply Q; discriminate].
    destruct (v_alive y); injection Hs as <- <-; [|apply Q; discriminate].
    eapply tinv_ext; [| | |exact H]; reflexivity.
  - destruct (l_views s v) as [y|]; [|injection Hs as <- <-; apply Q; discriminate].
    destruct (v_alive y); injection Hs as <- <-; [|apply Q; discriminate]. apply V; try discriminate; reflexivity.
  - destruct (l_views s v) as [y|]; [|injection Hs as <- <-; apply Q; discriminate].
    destruct (v_alive y); injection Hs as <- <-; [|apply Q; discriminate]. apply V; try discriminate; reflexivity.
Qed.
Lemma drop_inv gc s h i b ks s0 : l_src s i = Some (SLeft b ks) ->
  (forall n, l_reg s0 n = if b && existsb (eqb_list n) ks then None else l_reg s n) ->
  l_src s0 = l_src s -> l_next s0 = l_next s -> l_caches s0 = l_caches s -> l_views s0 = l_views s ->
  tinv s h -> sinv gc s h -> vinv gc s h ->
  sinv gc (set_src s0 i SDone) ((OEdgeDrop i, Done) :: h) /\ vinv gc (set_src s0 i SDone) ((OEdgeDrop i, Done) :: h).
Proof.
  intros Hi E1 E2 E3 E4 E5 HT HS HV.
  assert (Ho : forall n, owner n ((OEdgeDrop i, Done) :: h) = if b && existsb (eqb_list n) ks then None else owner n h).
  { intros n. cbn [owner]. pose proof (t_left _ _ HT i b ks Hi) as T. destruct b; cbn [andb].
    - destruct T as (m & -> & ->). cbn [existsb]. rewrite orb_false_r. reflexivity.
    - rewrite T. reflexivity. }
  split.
  - constructor; cbn [set_src l_src l_next l_caches l_reg]; rewrite ?E2, ?E3, ?E4.
    + intros j Hj. unfold updn in Hj. dn j i Hne; [discriminate|].
      destruct (s_none _ _ _ HS j Hj) as (A & B & C & D). auto.
    + intros j n Hj. unfold updn in Hj. dn j i Hne; [discriminate|].
      destruct (s_open _ _ _ HS j n Hj) as (A & B & C & D). auto.
    + intros j e ks' Hj. unfold updn in Hj. dn j i Hne; [discriminate|]. exact (s_act _ _ _ HS j e ks' Hj).
    + intros j Hj n. cbn [holds]. unfold updn in Hj. dn j i Hne; [exact (s_left _ _ _ HS i b ks Hi n)|]. exact (s_done _ _ _ HS j Hj n).
    + intros j b' ks' Hj n. cbn [holds]. unfold updn in Hj. dn j i Hne; [discriminate|]. exact (s_left _ _ _ HS j b' ks' Hj n).
    + exact (s_lt _ _ _ HS).
    + exact (s_inj _ _ _ HS).
    + exact (s_store _ _ _ HS).
    + intros n. rewrite Ho, E1. destruct (b && existsb (eqb_list n) ks); [reflexivity|].
      pose proof (s_reg _ _ _ HS n) as R. destruct (l_reg s n) as [c|]; [|exact R].
      destruct R as (j & k & e & ks' & A & B & C). exists j, k, e, ks'. split; [exact A|]. split; [|exact C].
      unfold updn. destruct (Nat.eqb_spec j i) as [->|]; [congruence|exact B].
  - apply vinv_src with (gc := gc) (s := s); auto; cbn [set_src l_views l_caches].
    + intros v. rewrite E5. reflexivity.
    + intros c. rewrite E4. auto.
Qed.

(** ** One step. *)
Definition env1 (s : live) (o : op) : Prop :=
  match o with OPlay _ addr _ => fresh_addr s addr | OVanish _ => False | _ => True end.

Lemma inv_quiet gc s h o x : quiet o x = true -> (forall v ps, (o, x) <> (OPoll v, Given ps)) ->
  sinv gc s h -> vinv gc s h -> sinv gc s ((o, x) :: h) /\ vinv gc s ((o, x) :: h).
Proof. intros. split; [apply sinv_quiet|apply vinv_quiet]; auto. Qed.

Ltac quiet_case gc := exists gc; apply inv_quiet; [reflexivity|intros; discriminate|assumption|assumption].

Lemma step_inv shape gc s h o s' x : keeps_order shape -> env1 s o -> tinv s h ->
  sinv gc s h -> vinv gc s h -> step shape s o = (s', x) ->
  exists gc', sinv gc' s' ((o, x) :: h) /\ vinv gc' s' ((o, x) :: h).
Proof.
  intros Hsh He HT HS HV Hst. destruct o as [i name|i name|i name|i|i k p|i|i|v addr name|v|v|v]; cbn [step] in Hst.
  - destruct (l_src s i) eqn:Ei; [injection Hst as <- <-; quiet_case gc|].
    destruct (l_reg s name) eqn:Er; [injection Hst as <- <-; quiet_case gc|].
    injection Hst as <- <-. eexists. apply (take_inv gc); auto.
  - destruct (l_src s i) eqn:Ei; [injection Hst as <- <-; quiet_case gc|].
    destruct (l_reg s name) eqn:Er; [injection Hst as <- <-; quiet_case gc|].
    injection Hst as <- <-. eexists. apply (srt_inv gc); auto.
  - destruct (l_src s i) eqn:Ei; [injection Hst as <- <-; quiet_case gc|].
    destruct (l_reg s name) eqn:Er; [injection Hst as <- <-; quiet_case gc|].
    destruct (l_edges s name) eqn:Ee; [injection Hst as <- <-; quiet_case gc|].
    injection Hst as <- <-. exists gc. apply edge_start_inv; auto.
  - destruct (l_src s i) as [[n|e keys|b ks|]|] eqn:Ei; try (injection Hst as <- <-; quiet_case gc).
    injection Hst as <- <-. eexists. apply (take_inv gc); auto.
  - destruct (l_src s i) as [[n|e keys|b ks|]|] eqn:Ei; try (injection Hst as <- <-; quiet_case gc).
    destruct (nth_error keys k) as [[n c]|] eqn:Ek; [|injection Hst as <- <-; quiet_case gc].
    injection Hst as <- <-. exists gc. eapply put_inv; eauto.
  - destruct (l_src s i) as [[n|[] keys|b ks|]|] eqn:Ei; try (injection Hst as <- <-; quiet_case gc);
      injection Hst as <- <-; exists gc.
    + eapply end_inv with (keys := []) (s := s); eauto. right. eauto.
    + destruct (fold_release (map fst keys) s) as (A & B & C & D & E & _).
      destruct (fold_set_edge (map fst keys) (fold_left release (map fst keys) s)) as (A' & B' & C' & D' & E').
      eapply end_inv with (keys := keys) (s := s); eauto.
      * right. eauto.
      * intros n. rewrite A'. apply A.
      * rewrite B'. exact B.
      * rewrite C'. exact C.
      * rewrite D'. exact D.
      * rewrite E'. exact E.
    + destruct (fold_release (map fst keys) s) as (A & B & C & D & E & _).
      eapply end_inv with (keys := keys) (s := s); eauto. left. reflexivity.
  - destruct (l_src s i) as [[n|e keys|b ks|]|] eqn:Ei; try (injection Hst as <- <-; quiet_case gc); injection Hst as <- <-; exists gc.
    destruct (fold_set_edge ks (if b then fold_left release ks s else s)) as (A' & B' & C' & D' & E').
    destruct (fold_release ks s) as (A & B & C & D & E & _).
    eapply drop_inv with (s := s) (b := b) (ks := ks); try assumption; rewrite ?A', ?B', ?C', ?D', ?E'; destruct b; auto.
  - destruct (l_views s v) eqn:Ev; [injection Hst as <- <-; quiet_case gc|].
    destruct (l_reg s name) eqn:Er; [|injection Hst as <- <-; quiet_case gc].
    injection Hst as <- <-. exists gc. apply play_inv; auto.
  - destruct (l_views s v) as [y|] eqn:Ev; [|injection Hst as <- <-; quiet_case gc].
    destruct (v_alive y) eqn:Ea; [|injection Hst as <- <-; quiet_case gc].
    injection Hst as <- <-. exists gc. apply poll_inv; auto.
  - destruct (l_views s v) as [y|] eqn:Ev; [|injection Hst as <- <-; quiet_case gc].
    destruct (v_alive y) eqn:Ea; [|injection Hst as <- <-; quiet_case gc].
    injection Hst as <- <-. exists gc. apply leave_inv; auto.
  - contradiction He.
Qed.

Lemma inv0 : sinv (fun _ _ => None) live0 [] /\ vinv (fun _ _ => None) live0 [].
Proof.
  split; constructor; cbn; try discriminate; auto.
  - intros. constructor.
  - intros c e H. contradiction H.
Qed.

Lemma play_events_inv shape os : keeps_order shape -> forall gc s h s' h',
  env_ok shape s os -> tinv s h -> sinv gc s h -> vinv gc s h -> play_events shape s h os = (s', h') ->
  exists gc', sinv gc' s' h' /\ vinv gc' s' h'.
Proof.
  intros Hsh. induction os as [|o os IH]; intros gc s h s' h' He HT HS HV Hr; cbn in *.
  - injection Hr as <- <-. eauto.
  - destruct He as [He1 He2]. destruct (step shape s o) as [s1 x] eqn:Es. cbn in He2.
    destruct (step_inv _ gc _ h _ _ _ Hsh He1 HT HS HV Es) as (gc' & HS' & HV').
    exact (IH gc' s1 _ s' h' He2 (tinv_step _ _ _ _ _ _ Es HT) HS' HV' Hr).
Qed.

(** ** From [seen] to the split history. *)
Lemma nplays_app v a b : nplays v (a ++ b) = (nplays v a + nplays v b)%nat.
Proof.
  induction a as [|[o x] a IH]; cbn; [reflexivity|].
  destruct o; try exact IH; destruct x; try exact IH. rewrite IH. lia.
Qed.

Lemma seen_split v a name i k post pre :
  nplays v post = 0%nat -> owner name pre = Some (i, k) ->
  seen v (post ++ (OPlay v a name, Done) :: pre) = Some (i, k, snapshot k (puts i k pre) ++ puts i k post).
Proof.
  intros Hn Ho. induction post as [|[o x] post IH]; cbn [app].
  - cbn. rewrite Nat.eqb_refl, Ho, app_nil_r. reflexivity.
  - destruct o, x; cbn in Hn |- *; try (exact (IH Hn)).
    + rewrite (IH Hn). rewrite <- app_assoc. reflexivity.
    + destruct (Nat.eqb_spec v v0) as [->|]; [discriminate|]. exact (IH Hn).
Qed.


Lemma play_events_app shape a b s h :
  play_events shape s h (a ++ b) =
  let '(s1, h1) := play_events shape s h a in play_events shape s1 h1 b.
Proof.
  revert s h. induction a as [|o a IH]; intros s h; cbn; [reflexivity|].
  destruct (step shape s o) as [s1 x]. apply IH.
Qed.

Lemma play_events_suffix shape os s h s' h' : play_events shape s h os = (s', h') ->
  exists new, h' = new ++ h /\ length new = length os.
Proof.
  revert s h. induction os as [|o os IH]; intros s h Hr; cbn in Hr.
  - injection Hr as _ <-. exists []. auto.
  - destruct (step shape s o) as [s1 x]. destruct (IH _ _ Hr) as (new & E & L).
    exists (new ++ [(o, x)]). rewrite <- app_assoc. split; [exact E|]. rewrite app_length. cbn. lia.
Qed.

Lemma app_same_len {A} (a b c d : list A) : a ++ b = c ++ d -> length b = length d -> b = d.
Proof.
  revert c. induction a as [|x a IH]; intros [|y c] E L; cbn in E.
  - exact E.
  - subst b. cbn in L. rewrite app_length in L. lia.
  - subst d. cbn in L. rewrite app_length in L. lia.
  - injection E as _ E. exact (IH c E L).
Qed.

(** The state just before an event of the history. *)
Lemma play_events_split shape os s s' post o x pre :
  play_events shape s [] os = (s', post ++ (o, x) :: pre) ->
  exists os1 os2 s1 s2, os = os1 ++ o :: os2 /\ play_events shape s [] os1 = (s1, pre) /\
    step shape s1 o = (s2, x) /\ play_events shape s2 ((o, x) :: pre) os2 = (s', post ++ (o, x) :: pre).
Proof.
  intros Hr. destruct (play_events_suffix _ _ _ _ _ _ Hr) as (new & E & L). rewrite app_nil_r in E.
  assert (Ll : length os = (length post + S (length pre))%nat).
  { rewrite <- L, <- E, app_length. reflexivity. }
  pose proof (firstn_skipn (length pre) os) as Hos. set (os1 := firstn (length pre) os) in *.
  assert (L1 : length os1 = length pre) by (unfold os1; rewrite firstn_length; lia).
  destruct (skipn (length pre) os) as [|o' os2] eqn:Esk.
  { apply (f_equal (@length _)) in Esk. rewrite skipn_length in Esk. cbn in Esk. lia. }
  rewrite <- Hos in Hr. rewrite play_events_app in Hr. destruct (play_events shape s [] os1) as [s1 h1] eqn:E1.
  destruct (play_events_suffix _ _ _ _ _ _ E1) as (n1 & En1 & Ln1). rewrite app_nil_r in En1. subst n1.
  assert (Hr2 := Hr). cbn in Hr2. destruct (step shape s1 o') as [s2 y] eqn:Es.
  destruct (play_events_suffix _ _ _ _ _ _ Hr2) as (n2 & En2 & Ln2).
  assert (X : (o, x) :: pre = (o', y) :: h1).
  { eapply app_same_len; [exact En2|]. cbn. lia. }
  injection X as <- <- <-. exists os1, os2, s1, s2. split; [symmetry; exact Hos|]. auto.
Qed.

Lemma env_ok_app shape a b s : env_ok shape s (a ++ b) ->
  env_ok shape s a /\ env_ok shape (fst (play_events shape s [] a)) b.
Proof.
  assert (F : forall a s h, fst (play_events shape s h a) = fst (play_events shape s [] a)).
  { clear. induction a as [|o a IH]; intros s h; cbn; [reflexivity|].
    destruct (step shape s o) as [s1 x]. rewrite IH. symmetry. apply IH. }
  revert s. induction a as [|o a IH]; intros s H; cbn in *; [auto|].
  destruct H as [H1 H2]. destruct (step shape s o) as [s1 x] eqn:E. cbn in *.
  destruct (IH _ H2) as [H3 H4]. rewrite F. auto.
Qed.

(** Viewers die only by leaving. *)
Definition left_inv (s : live) (h : hist) : Prop := forall v,
  match l_views s v with
  | None => ~ In (OLeave v, Done) h
  | Some x => v_alive x = false -> In (OLeave v, Done) h
  end.

Lemma left_ext s s' h e : (forall v, e <> (OLeave v, Done)) ->
  (forall v, option_map v_alive (l_views s' v) = option_map v_alive (l_views s v)) ->
  left_inv s h -> left_inv s' (e :: h).
Proof.
  intros He Hv H v. specialize (H v). specialize (Hv v).
  destruct (l_views s' v) as [x|], (l_views s v) as [y|]; cbn in Hv; try discriminate.
  - injection Hv as E. rewrite E. intros Ha. right. exact (H Ha).
  - intros [E|E]; [exact (He v E)|exact (H E)].
Qed.

Lemma publish_to_alive es p : forall vs w,
  option_map v_alive (fst (publish_to vs es p) w) = option_map v_alive (vs w).
Proof.
  induction es as [|e es IH]; intros vs w; cbn; [reflexivity|].
  destruct (is_alive vs (fst e)); [|apply IH].
  destruct (publish_to (deliver vs (fst e) p) es p) as [vs' k] eqn:E. cbn.
  specialize (IH (deliver vs (fst e) p) w). rewrite E in IH. cbn in IH. rewrite IH.
  unfold deliver. destruct (vs (fst e)) as [x|] eqn:Ex; [|reflexivity].
  unfold updn. destruct (Nat.eqb_spec w (fst e)) as [->|]; [rewrite Ex|]; reflexivity.
Qed.

Lemma drop_views b ks s :
  l_views (fold_left (fun a k => set_edge a k None) ks (if b : bool then fold_left release ks s else s)) = l_views s.
Proof.
  destruct (fold_set_edge ks (if b then fold_left release ks s else s)) as (_ & _ & _ & _ & ->). destruct b; [|reflexivity].
  destruct (fold_release ks s) as (_ & _ & _ & _ & E & _). exact E.
Qed.
Lemma left_step shape s h o s' x : env1 s o -> step shape s o = (s', x) -> left_inv s h -> left_inv s' ((o, x) :: h).
Proof.
  intros He Hs H.
  destruct o as [i name|i name|i name|i|i k p|i|i|v addr name|v|v|v]; cbn [step] in Hs.
  - destruct (l_src s i); [|destruct (l_reg s name)]; injection Hs as <- <-; (eapply left_ext; [intros; discriminate| |exact H]); reflexivity.
  - destruct (l_src s i); [|destruct (l_reg s name)]; injection Hs as <- <-; (eapply left_ext; [intros; discriminate| |exact H]); reflexivity.
  - destruct (l_src s i); [|destruct (l_reg s name), (l_edges s name)]; injection Hs as <- <-; (eapply left_ext; [intros; discriminate| |exact H]); reflexivity.
  - destruct (l_src s i) as [[]|]; injection Hs as <- <-; (eapply left_ext; [intros; discriminate| |exact H]); reflexivity.
  - destruct (l_src s i) as [[]|]; [| |injection Hs as <- <-; (eapply left_ext; [intros; discriminate| |exact H]); reflexivity..];
      [injection Hs as <- <-; (eapply left_ext; [intros; discriminate| |exact H]); reflexivity|].
    destruct (nth_error keys k) as [[n c]|]; injection Hs as <- <-; (eapply left_ext; [intros; discriminate| |exact H]); [|reflexivity].
    intros w. unfold cache_put. pose proof (publish_to_alive (inorder (c_subs (l_caches s c))) p (l_views s) w) as P.
    destruct (publish_to _ _ p) as [vs es]. exact P.
  - destruct (l_src s i) as [[n|[] keys|b ks|]|]; injection Hs as <- <-; (eapply left_ext; [intros; discriminate| |exact H]); try reflexivity.
    + destruct (fold_release (map fst keys) s) as (_ & _ & _ & _ & E & _).
      destruct (fold_set_edge (map fst keys) (fold_left release (map fst keys) s)) as (_ & _ & _ & _ & E').
      intros w. cbn. rewrite E', E. reflexivity.
    + destruct (fold_release (map fst keys) s) as (_ & _ & _ & _ & E & _). intros w. cbn. rewrite E. reflexivity.
  - destruct (l_src s i) as [[n|e keys|b ks|]|]; injection Hs as <- <-; (eapply left_ext; [intros; discriminate| |exact H]); try reflexivity.
    intros w. cbn. rewrite drop_views. reflexivity.
  - destruct (l_views s v) eqn:Ev; [injection Hs as <- <-; (eapply left_ext; [intros; discriminate| |exact H]); reflexivity|].
    destruct (l_reg s name); injection Hs as <- <-; [|(eapply left_ext; [intros; discriminate| |exact H]); reflexivity].
    intros w. cbn. unfold updn. destruct (Nat.eqb_spec w v) as [->|]; [discriminate|].
    specialize (H w). destruct (l_views s w); [auto|]. intros [E|E]; [discriminate|exact (H E)].
  - destruct (l_views s v) as [y|] eqn:Ev; [|injection Hs as <- <-; (eapply left_ext; [intros; discriminate| |exact H]); reflexivity].
    destruct (v_alive y) eqn:Ea; injection Hs as <- <-; (eapply left_ext; [intros; discriminate| |exact H]); [|reflexivity].
    intros w. cbn. unfold updn. destruct (Nat.eqb_spec w v) as [->|]; [|reflexivity]. rewrite Ev. cbn. rewrite Ea. reflexivity.
  - destruct (l_views s v) as [y|] eqn:Ev; [|injection Hs as <- <-; (eapply left_ext; [intros; discriminate| |exact H]); reflexivity].
    destruct (v_alive y) eqn:Ea; injection Hs as <- <-; [|(eapply left_ext; [intros; discriminate| |exact H]); reflexivity].
    intros w. cbn. unfold updn. destruct (Nat.eqb_spec w v) as [->|Hne]; [intros _; left; reflexivity|].
    specialize (H w). destruct (l_views s w); [auto|]. intros [E|E]; [injection E; congruence|exact (H E)].
  - contradiction He.
Qed.

Lemma left_run shape os : forall s h s' h', env_ok shape s os -> left_inv s h ->
  play_events shape s h os = (s', h') -> left_inv s' h'.
Proof.
  induction os as [|o os IH]; intros s h s' h' He H Hr; cbn in *.
  - injection Hr as <- <-. exact H.
  - destruct He as [He1 He2]. destruct (step shape s o) as [s1 x] eqn:Es. cbn in He2.
    eapply IH; [exact He2| |exact Hr]. eapply left_step; eauto.
Qed.

Lemma given_app v post pre : given v (post ++ pre) = given v pre ++ given v post.
Proof.
  induction post as [|[o x] post IH]; cbn [app]; [rewrite app_nil_r; reflexivity|].
  destruct o, x; cbn [given]; try exact IH. rewrite IH, app_assoc. reflexivity.
Qed.

Lemma viewer_stream shape os s post pre v a name :
  keeps_order shape -> env_ok shape live0 os ->
  play_events shape live0 [] os = (s, post ++ (OPlay v a name, Done) :: pre) ->
  ~ In (OLeave v, Done) post ->
  exists i k x, owner name pre = Some (i, k) /\ l_views s v = Some x /\ v_alive x = true /\
    given v post ++ v_queue x = snapshot k (puts i k pre) ++ puts i k post.
Proof.
  intros Hsh He Hr Hnl. destruct inv0 as [HS0 HV0].
  destruct (play_events_split _ _ _ _ _ _ _ _ Hr) as (os1 & os2 & s1 & s2 & Eos & R1 & Est & R2).
  assert (He' := He). rewrite Eos in He'. apply env_ok_app in He' as [He1 He2]. rewrite R1 in He2. cbn in He2.
  destruct He2 as [Hfr _].
  destruct (play_events_inv _ _ Hsh _ _ _ _ _ He1 tinv0 HS0 HV0 R1) as (gc1 & HS1 & HV1).
  cbn in Est. destruct (l_views s1 v) eqn:Ev1; [discriminate|]. destruct (l_reg s1 name) as [c|] eqn:Er1; [|discriminate].
  pose proof (s_reg _ _ _ HS1 name) as R. rewrite Er1 in R. destruct R as (i & k & _ & _ & Ho & _).
  destruct (v_none _ _ _ HV1 v Ev1) as [Hn1 Hg1].
  assert (L0 : left_inv live0 []) by (intros w; cbn; auto).
  pose proof (left_run _ _ _ _ _ _ He1 L0 R1 v) as L1. rewrite Ev1 in L1.
  pose proof (left_run _ _ _ _ _ _ He L0 Hr v) as L2.
  destruct (play_events_inv _ _ Hsh _ _ _ _ _ He tinv0 HS0 HV0 Hr) as (gc & HS & HV).
  destruct (l_views s v) as [x|] eqn:Ev.
  - destruct (v_some _ _ _ HV v x Ev) as (A & B & i' & k' & l & C & D & E).
    rewrite nplays_app in A. cbn in A. rewrite Nat.eqb_refl, Hn1 in A.
    assert (Hn : nplays v post = 0%nat) by lia.
    rewrite (seen_split v a name i k post pre Hn Ho) in C. injection C as <- <- <-.
    assert (Hal : v_alive x = true).
    { destruct (v_alive x); [reflexivity|]. specialize (L2 eq_refl).
      apply in_app_or in L2 as [L2|[L2|L2]]; [contradiction|discriminate|contradiction]. }
    exists i, k, x. split; [exact Ho|]. split; [reflexivity|]. split; [exact Hal|].
    rewrite <- (E Hal). f_equal. rewrite <- B, given_app. cbn [given]. rewrite Hg1. reflexivity.
  - exfalso. destruct (v_none _ _ _ HV v Ev) as [A _]. rewrite nplays_app in A. cbn in A. rewrite Nat.eqb_refl in A. lia.
Qed.

(** ** A checker for the environment assumption, used by the examples. *)
Definition fresh_b (n : nat) (s : live) (addr : Z) : bool :=
  forallb (fun v => match l_views s v with
                    | Some x => negb (v_alive x) || negb (v_addr x =? addr)
                    | None => true
                    end) (seq 0 n).
Fixpoint env_b (n : nat) (shape : shaper) (s : live) (os : list op) : bool :=
  match os with
  | [] => true
  | o :: r => (match o with
               | OPlay v a _ => (v <? n)%nat && fresh_b n s a
               | OVanish _ => false
               | _ => true
               end) && env_b n shape (fst (step shape s o)) r
  end.

Lemma step_views_none shape s o w : l_views s w = None -> (forall a n, o <> OPlay w a n) ->
  l_views (fst (step shape s o)) w = None.
Proof.
  intros Hw Ho. destruct o as [i name|i name|i name|i|i k p|i|i|v addr name|v|v|v]; cbn [step].
  - destruct (l_src s i); [|destruct (l_reg s name)]; exact Hw.
  - destruct (l_src s i); [|destruct (l_reg s name)]; exact Hw.
  - destruct (l_src s i); [|destruct (l_reg s name), (l_edges s name)]; exact Hw.
  - destruct (l_src s i) as [[]|]; exact Hw.
  - destruct (l_src s i) as [[]|]; try exact Hw. destruct (nth_error keys k) as [[n c]|]; [|exact Hw].
    cbn. unfold cache_put. pose proof (publish_to_alive (inorder (c_subs (l_caches s c))) p (l_views s) w) as P.
    destruct (publish_to _ _ p) as [vs es]. cbn in *. rewrite Hw in P. destruct (vs w); [discriminate|reflexivity].
  - destruct (l_src s i) as [[n|[] keys|b ks|]|]; try exact Hw; cbn.
    + destruct (fold_release (map fst keys) s) as (_ & _ & _ & _ & E & _).
      destruct (fold_set_edge (map fst keys) (fold_left release (map fst keys) s)) as (_ & _ & _ & _ & E').
      rewrite E', E. exact Hw.
    + destruct (fold_release (map fst keys) s) as (_ & _ & _ & _ & E & _). rewrite E. exact Hw.
  - destruct (l_src s i) as [[n|e keys|b ks|]|]; try exact Hw; cbn. rewrite drop_views. exact Hw.
  - destruct (l_views s v) eqn:Ev; [exact Hw|]. destruct (l_reg s name); [|exact Hw].
    cbn. unfold updn. destruct (Nat.eqb_spec w v) as [->|]; [|exact Hw]. exfalso. eapply Ho. reflexivity.
  - destruct (l_views s v) as [y|] eqn:Ev; [|exact Hw]. destruct (v_alive y); [|exact Hw].
    cbn. unfold updn. destruct (Nat.eqb_spec w v) as [->|]; [congruence|exact Hw].
  - destruct (l_views s v) as [y|] eqn:Ev; [|exact Hw]. destruct (v_alive y); [|exact Hw].
    cbn. unfold updn. destruct (Nat.eqb_spec w v) as [->|]; [congruence|exact Hw].
  - destruct (l_views s v) as [y|] eqn:Ev; [|exact Hw]. destruct (v_alive y); [|exact Hw].
    cbn. unfold updn. destruct (Nat.eqb_spec w v) as [->|]; [congruence|exact Hw].
Qed.

Lemma env_b_ok n shape os : forall s, (forall w, (n <= w)%nat -> l_views s w = None) ->
  env_b n shape s os = true -> env_ok shape s os.
Proof.
  induction os as [|o os IH]; intros s Hb H; cbn in *; [exact I|].
  apply andb_true_iff in H as [H1 H2]. split.
  - destruct o; try exact I; [|discriminate]. apply andb_true_iff in H1 as [_ H1].
    unfold fresh_b in H1. rewrite forallb_forall in H1. intros w x Hw Ha.
    assert (Hin : In w (seq 0 n)).
    { apply in_seq. destruct (Nat.le_gt_cases n w) as [L|L]; [rewrite (Hb w L) in Hw; discriminate|lia]. }
    specialize (H1 w Hin). rewrite Hw, Ha in H1. cbn in H1. lia.
  - apply IH; [|exact H2]. intros w Lw. apply step_views_none; [exact (Hb w Lw)|].
    intros a m ->. apply andb_true_iff in H1 as [H1 _]. apply Nat.ltb_lt in H1. lia.
Qed.

Lemma env_b_ok0 n shape os : env_b n shape live0 os = true -> env_ok shape live0 os.
Proof. apply env_b_ok. reflexivity. Qed.
