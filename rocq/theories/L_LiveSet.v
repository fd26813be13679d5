(** Lemmas on the subscriber set. *)
From Verif Require Import Base M_Packet M_Cache M_Live.
From Coq Require Import Sorted.

Definition elt (a b : entry) : Prop := snd a < snd b.
Definition sorted (l : list entry) : Prop := StronglySorted elt l.

Lemma sorted_app l x r :
  sorted (l ++ x :: r) <->
  sorted l /\ sorted r /\ Forall (fun e => snd e < snd x) l /\ Forall (fun e => snd x < snd e) r.
Proof.
  unfold sorted. induction l as [|y l IH]; cbn.
  - split.
    + intros H. inversion H; subst. split; [constructor|]. split; [assumption|]. split; [constructor|assumption].
    + intros (_ & H1 & _ & H2). constructor; assumption.
  - split.
    + intros H. inversion H as [|? ? H1 H2]; subst. apply IH in H1 as (A & B & C & D).
      apply Forall_app in H2 as [H2 H3]. inversion H3; subst.
      split; [constructor; assumption|]. split; [assumption|]. split; [constructor; assumption|assumption].
    + intros (A & B & C & D). inversion A; subst. inversion C; subst. constructor.
      * apply IH. auto.
      * apply Forall_app. split; [assumption|]. constructor; [assumption|].
        eapply Forall_impl; [|exact D]. unfold elt. cbn. intros. lia.
Qed.

Definition all_alive (alive : nat -> bool) (l : list entry) : Prop :=
  Forall (fun e => alive (fst e) = true) l.

Lemma wless_alive alive a b : alive (fst a) = true -> alive (fst b) = true ->
  wless alive a b = (snd a <? snd b).
Proof. intros Ha Hb. unfold wless. rewrite Ha, Hb. reflexivity. Qed.

Lemma set_insert_ok alive k t : alive (fst k) = true ->
  forall j, (forall y, j = Some y -> alive (fst y) = true /\ snd y < snd k) ->
  all_alive alive (inorder t) -> sorted (inorder t) ->
  (forall e, In e (inorder t) -> snd e <> snd k) ->
  exists t' a b, set_insert alive k t j = Some t' /\ inorder t = a ++ b /\ inorder t' = a ++ k :: b /\
    sorted (a ++ k :: b).
Proof.
  intros Hk. induction t as [|l IHl x r IHr]; intros j Hj Ha Hs Hn; cbn in *.
  - exists (Nd Lf k Lf), [], []. cbn. split.
    + destruct j as [y|]; [|reflexivity]. destruct (Hj y eq_refl) as [H1 H2].
      rewrite wless_alive by assumption. replace (snd y <? snd k) with true by lia. reflexivity.
    + split; [reflexivity|]. split; [reflexivity|]. repeat constructor.
  - apply Forall_app in Ha as [Ha1 Ha2]. inversion Ha2 as [|? ? Hx Ha3]; subst.
    pose proof Hs as Hs0. apply sorted_app in Hs0 as (S1 & S2 & S3 & S4).
    rewrite wless_alive by assumption.
    assert (Hnx : snd x <> snd k) by (apply Hn, in_or_app; right; left; reflexivity).
    destruct (snd k <? snd x) eqn:E.
    + destruct (IHl j Hj Ha1 S1) as (t' & a & b & E1 & E2 & E3 & E4).
      { intros e He. apply Hn, in_or_app. auto. }
      rewrite E1. exists (Nd t' x r), a, (b ++ x :: inorder r). split; [reflexivity|].
      cbn. rewrite E2, E3, <- !app_assoc. split; [reflexivity|]. split; [reflexivity|].
      cbn [app]. apply sorted_app in E4 as (Q1 & Q2 & Q3 & Q4).
      apply sorted_app. split; [assumption|]. rewrite E2 in S3. apply Forall_app in S3 as [S3a S3b].
      split; [apply sorted_app; auto|]. split; [assumption|]. apply Forall_app. split; [assumption|].
      constructor; [lia|]. eapply Forall_impl; [|exact S4]. cbn. intros. lia.
    + destruct (IHr (Some x)) as (t' & a & b & E1 & E2 & E3 & E4); try assumption.
      { intros y Hy. injection Hy as <-. split; [assumption|lia]. }
      { intros e He. apply Hn, in_or_app. right. right. assumption. }
      rewrite E1. exists (Nd l x t'), (inorder l ++ x :: a), b. split; [reflexivity|].
      cbn. rewrite E2, E3, <- !app_assoc. split; [reflexivity|]. split; [reflexivity|].
      apply sorted_app in E4 as (Q1 & Q2 & Q3 & Q4). cbn [app].
      rewrite E2 in S4. apply Forall_app in S4 as [S4a S4b].
      change (inorder l ++ x :: a ++ k :: b) with (inorder l ++ (x :: (a ++ k :: b))).
      apply sorted_app. split; [assumption|].
      split; [apply sorted_app; auto|]. split; [assumption|].
      apply Forall_app. split; [assumption|]. constructor; [lia|assumption].
Qed.

Definition cnt (f : entry -> bool) (l : list entry) : nat := length (filter f l).
Arguments cnt : simpl never.
Lemma cnt_app f a b : cnt f (a ++ b) = (cnt f a + cnt f b)%nat.
Proof. unfold cnt. rewrite filter_app, app_length. reflexivity. Qed.
Lemma cnt_all f l : Forall (fun e => f e = true) l -> cnt f l = length l.
Proof. induction 1; cbn; [reflexivity|]. unfold cnt in *. cbn. rewrite H. cbn. lia. Qed.
Lemma cnt_none f l : Forall (fun e => f e = false) l -> cnt f l = 0%nat.
Proof. induction 1; cbn; [reflexivity|]. unfold cnt in *. cbn. rewrite H. assumption. Qed.
Lemma cnt_cons f x l : cnt f (x :: l) = ((if f x then 1 else 0) + cnt f l)%nat.
Proof. unfold cnt. cbn. destruct (f x); reflexivity. Qed.

Lemma Forall_lia (P Q : entry -> Prop) l : (forall e, P e -> Q e) -> Forall P l -> Forall Q l.
Proof. intros H. apply Forall_impl. exact H. Qed.

Lemma set_lower_cnt alive k t : alive (fst k) = true -> all_alive alive (inorder t) -> sorted (inorder t) ->
  set_lower alive k t = cnt (fun e => snd e <? snd k) (inorder t).
Proof.
  intros Hk. induction t as [|l IHl x r IHr]; intros Ha Hs; cbn; [reflexivity|]. cbn in *.
  apply Forall_app in Ha as [Ha1 Ha2]. inversion Ha2 as [|? ? Hx Ha3]; subst.
  apply sorted_app in Hs as (S1 & S2 & S3 & S4).
  rewrite wless_alive, cnt_app, cnt_cons by assumption.
  destruct (snd x <? snd k) eqn:E.
  - rewrite IHr by assumption. rewrite (cnt_all _ (inorder l)).
    + lia.
    + eapply Forall_lia; [|exact S3]. cbn. intros. lia.
  - rewrite IHl by assumption. rewrite (cnt_none _ (inorder r)); [lia|].
    eapply Forall_lia; [|exact S4]. cbn. intros. lia.
Qed.

Lemma set_upper_cnt alive k t : alive (fst k) = true -> all_alive alive (inorder t) -> sorted (inorder t) ->
  set_upper alive k t = cnt (fun e => snd e <=? snd k) (inorder t).
Proof.
  intros Hk. induction t as [|l IHl x r IHr]; intros Ha Hs; cbn; [reflexivity|]. cbn in *.
  apply Forall_app in Ha as [Ha1 Ha2]. inversion Ha2 as [|? ? Hx Ha3]; subst.
  apply sorted_app in Hs as (S1 & S2 & S3 & S4).
  rewrite wless_alive, cnt_app, cnt_cons by assumption.
  destruct (snd k <? snd x) eqn:E.
  - rewrite IHl by assumption. replace (snd x <=? snd k) with false by lia.
    rewrite (cnt_none _ (inorder r)); [lia|].
    eapply Forall_lia; [|exact S4]. cbn. intros. lia.
  - rewrite IHr by assumption. replace (snd x <=? snd k) with true by lia.
    rewrite (cnt_all _ (inorder l)); [lia|].
    eapply Forall_lia; [|exact S3]. cbn. intros. lia.
Qed.

Lemma set_range_cnt alive k t : alive (fst k) = true -> all_alive alive (inorder t) -> sorted (inorder t) ->
  set_range alive k t = (cnt (fun e => snd e <? snd k) (inorder t), cnt (fun e => snd e <=? snd k) (inorder t)).
Proof.
  intros Hk. induction t as [|l IHl x r IHr]; intros Ha Hs; cbn; [reflexivity|]. cbn in *.
  apply Forall_app in Ha as [Ha1 Ha2]. inversion Ha2 as [|? ? Hx Ha3]; subst.
  apply sorted_app in Hs as (S1 & S2 & S3 & S4).
  rewrite !wless_alive, !cnt_app, !cnt_cons by assumption.
  destruct (snd x <? snd k) eqn:E1.
  - rewrite IHr by assumption. replace (snd x <=? snd k) with true by lia.
    rewrite !(cnt_all _ (inorder l)); [f_equal; lia| |].
    + eapply Forall_lia; [|exact S3]. cbn. intros. lia.
    + eapply Forall_lia; [|exact S3]. cbn. intros. lia.
  - destruct (snd k <? snd x) eqn:E2.
    + rewrite IHl by assumption. replace (snd x <=? snd k) with false by lia.
      rewrite !(cnt_none _ (inorder r)); [f_equal; lia| |].
      * eapply Forall_lia; [|exact S4]. cbn. intros. lia.
      * eapply Forall_lia; [|exact S4]. cbn. intros. lia.
    + replace (snd x <=? snd k) with true by lia.
      rewrite set_lower_cnt, set_upper_cnt by assumption.
      rewrite !(cnt_none _ (inorder r)).
      * rewrite (cnt_all (fun e => snd e <=? snd k) (inorder l)); [f_equal; lia|].
        eapply Forall_lia; [|exact S3]. cbn. intros. lia.
      * eapply Forall_lia; [|exact S4]. cbn. intros. lia.
      * eapply Forall_lia; [|exact S4]. cbn. intros. lia.
Qed.

Lemma cut_mid {A} (a b : list A) k :
  firstn (length a + (0 + 0)) (a ++ k :: b) ++ skipn (length a + (1 + 0)) (a ++ k :: b) = a ++ b.
Proof.
  induction a as [|x a IH]; cbn; [reflexivity|]. f_equal. exact IH.
Qed.

Lemma set_erase_ok alive k t a b : alive (fst k) = true -> all_alive alive (inorder t) -> sorted (inorder t) ->
  inorder t = a ++ k :: b -> set_erase alive k t = a ++ b.
Proof.
  intros Hk Ha Hs E. unfold set_erase. rewrite set_range_cnt by assumption. rewrite E in *.
  apply sorted_app in Hs as (S1 & S2 & S3 & S4).
  rewrite !cnt_app, !cnt_cons.
  replace (snd k <? snd k) with false by lia. replace (snd k <=? snd k) with true by lia.
  rewrite !(cnt_all _ a), !(cnt_none _ b).
  - apply cut_mid.
  - eapply Forall_lia; [|exact S4]. cbn. intros. lia.
  - eapply Forall_lia; [|exact S4]. cbn. intros. lia.
  - eapply Forall_lia; [|exact S3]. cbn. intros. lia.
  - eapply Forall_lia; [|exact S3]. cbn. intros. lia.
Qed.

(** publish: all subscribers are alive and distinct. *)
Lemma is_alive_deliver vs v p w : is_alive (deliver vs v p) w = is_alive vs w.
Proof.
  unfold deliver, is_alive. destruct (vs v) as [x|] eqn:E; [|reflexivity].
  unfold updn. destruct (Nat.eqb_spec w v) as [->|]; [rewrite E|]; reflexivity.
Qed.

Definition push (x : viewer) (p : pkt) : viewer :=
  mkv (v_cid x) (v_addr x) (v_queue x ++ [p]) (v_got x) (v_alive x).

Lemma publish_to_ok es p : forall vs,
  all_alive (is_alive vs) es -> NoDup (map fst es) ->
  snd (publish_to vs es p) = es /\
  forall w, fst (publish_to vs es p) w =
    if existsb (fun e => Nat.eqb w (fst e)) es then option_map (fun x => push x p) (vs w) else vs w.
Proof.
  induction es as [|e es IH]; intros vs Ha Hn; cbn; [auto|].
  inversion Ha as [|? ? H1 H2]; subst. inversion Hn as [|? ? H3 H4]; subst. rewrite H1.
  assert (Ha' : all_alive (is_alive (deliver vs (fst e) p)) es).
  { eapply Forall_impl; [|exact H2]. cbn. intros a Hal. rewrite is_alive_deliver. exact Hal. }
  destruct (IH (deliver vs (fst e) p) Ha' H4) as [E1 E2].
  destruct (publish_to (deliver vs (fst e) p) es p) as [vs' k] eqn:E. cbn in *.
  split; [congruence|]. intros w. rewrite E2.
  unfold deliver. unfold is_alive in H1. destruct (vs (fst e)) as [x|] eqn:Ex; [|discriminate].
  unfold updn. destruct (Nat.eqb_spec w (fst e)) as [->|Hne]; cbn.
  - assert (existsb (fun e0 => Nat.eqb (fst e) (fst e0)) es = false) as ->.
    { apply not_true_iff_false. intros Eb. apply existsb_exists in Eb as (e' & Hin & He).
      apply Nat.eqb_eq in He. apply H3. rewrite He. apply in_map. exact Hin. }
    rewrite Ex. reflexivity.
  - reflexivity.
Qed.
