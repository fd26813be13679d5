(** The invariant behind the live-stream theorems. *)
From Verif Require Import Base M_Packet M_Cache M_Live S_Cache S_Live L_Cache L_LiveSet.
From Coq Require Import Sorted.

(** What viewer [v] is to see, following the history. *)
Fixpoint seen (v : nat) (h : hist) : option (nat * nat * list pkt) :=
  match h with
  | (OPlay w _ name, Done) :: r =>
      if Nat.eqb v w
      then match owner name r with
           | Some (i, k) => Some (i, k, snapshot k (puts i k r))
           | None => None
           end
      else seen v r
  | (OPut j m p, Done) :: r =>
      match seen v r with
      | Some (i, k, l) => Some (i, k, l ++ (if Nat.eqb i j && Nat.eqb k m then [p] else []))
      | None => None
      end
  | _ :: r => seen v r
  | [] => None
  end.
Fixpoint nplays (v : nat) (h : hist) : nat :=
  match h with
  | (OPlay w _ _, Done) :: r => (if Nat.eqb v w then 1 else 0) + nplays v r
  | _ :: r => nplays v r
  | [] => 0
  end%nat.

Definition store_inv (k : nat) (ps : list pkt) (st : store) : Prop :=
  match k with
  | O => exists g, st = SGop g /\ gop_inv ps g
  | S _ => exists t, st = STs t /\ tsc_inv ps t
  end.

Lemma store_inv_put k ps st p : store_inv k ps st -> store_inv k (ps ++ [p]) (st_put st p).
Proof.
  destruct k; intros (g & -> & H); cbn; eexists; (split; [reflexivity|]).
  - apply gop_put_inv. exact H.
  - apply tsc_put_inv. exact H.
Qed.
Lemma store_inv_dump k ps st : store_inv k ps st -> st_dump st = snapshot k ps.
Proof.
  destruct k; intros (g & -> & H); cbn.
  - pose proof (gop_inv_dump _ _ H) as E. unfold gop_dump in E. injection E as E _. exact E.
  - pose proof (tsc_inv_dump _ _ H) as E. cbn in E. exact E.
Qed.

Record sinv (gc : nat -> nat -> option nat) (s : live) (h : hist) : Prop := mksinv {
  s_none : forall i, l_src s i = None ->
     edge_name i h = None /\ (forall n, holds i n h = None) /\ (forall k, gc i k = None) /\ (forall k, puts i k h = []);
  s_open : forall i n, l_src s i = Some (SOpening n) ->
     edge_name i h = Some n /\ (forall n, holds i n h = None) /\ (forall k, gc i k = None) /\ (forall k, puts i k h = []);
  s_act : forall i e keys, l_src s i = Some (SActive e keys) ->
     (forall n k, holds i n h = Some k <-> exists c, nth_error keys k = Some (n, c)) /\
     (forall k, gc i k = option_map snd (nth_error keys k));
  s_done : forall i, l_src s i = Some SDone -> forall n, holds i n h = None;
  s_left : forall i b ks, l_src s i = Some (SLeft b ks) -> forall n, holds i n h = None;
  s_lt : forall i k c, gc i k = Some c -> (c < l_next s)%nat;
  s_inj : forall i k j m c, gc i k = Some c -> gc j m = Some c -> i = j /\ k = m;
  s_store : forall i k c, gc i k = Some c -> store_inv k (puts i k h) (c_store (l_caches s c));
  s_reg : forall n, match l_reg s n with
     | Some c => exists i k e keys, owner n h = Some (i, k) /\ l_src s i = Some (SActive e keys) /\
                                    nth_error keys k = Some (n, c)
     | None => owner n h = None
     end
}.

Record vinv (gc : nat -> nat -> option nat) (s : live) (h : hist) : Prop := mkvinv {
  v_none : forall v, l_views s v = None -> nplays v h = 0%nat /\ given v h = [];
  v_some : forall v x, l_views s v = Some x -> nplays v h = 1%nat /\ given v h = v_got x /\
     exists i k l, seen v h = Some (i, k, l) /\ gc i k = Some (v_cid x) /\
       (v_alive x = true -> v_got x ++ v_queue x = l);
  v_sorted : forall c, sorted (inorder (c_subs (l_caches s c)));
  v_in : forall c e, In e (inorder (c_subs (l_caches s c))) ->
     exists x, l_views s (fst e) = Some x /\ v_alive x = true /\ v_cid x = c /\ v_addr x = snd e;
  v_all : forall v x, l_views s v = Some x -> v_alive x = true ->
     In (v, v_addr x) (inorder (c_subs (l_caches s (v_cid x))));
  v_addrs : forall v w x y, l_views s v = Some x -> l_views s w = Some y ->
     v_alive x = true -> v_alive y = true -> v_addr x = v_addr y -> v = w
}.

Definition quiet (o : op) (x : out) : bool :=
  match x with
  | Done => match o with OPoll _ | OLeave _ | OVanish _ => true | _ => false end
  | _ => true
  end.

Ltac dn w v N :=
  let E := fresh "E" in
  destruct (Nat.eqb w v) eqn:E in *;
  [apply Nat.eqb_eq in E; subst w | apply Nat.eqb_neq in E; rename E into N].
Ltac eqn := repeat match goal with
  | H : (?a =? ?b)%nat = true |- _ => apply Nat.eqb_eq in H; subst
  | H : (?a =? ?b)%nat = false |- _ => apply Nat.eqb_neq in H
  end.

(** Events outside the source side leave the source functions alone. *)
Lemma quiet_src o x h : quiet o x = true ->
  (forall i, edge_name i ((o, x) :: h) = edge_name i h) /\
  (forall i n, holds i n ((o, x) :: h) = holds i n h) /\
  (forall i k, puts i k ((o, x) :: h) = puts i k h) /\
  (forall n, owner n ((o, x) :: h) = owner n h) /\
  (forall v, seen v ((o, x) :: h) = seen v h) /\
  (forall v, nplays v ((o, x) :: h) = nplays v h).
Proof.
  intros H. destruct o, x; cbn in H; try discriminate; cbn; auto 10.
Qed.

Lemma quiet_given o x h : (forall v ps, (o, x) <> (OPoll v, Given ps)) ->
  forall v, given v ((o, x) :: h) = given v h.
Proof. intros H v. destruct o, x; cbn; try reflexivity. exfalso. eapply H. reflexivity. Qed.

Lemma sinv_quiet gc s h o x : quiet o x = true -> sinv gc s h -> sinv gc s ((o, x) :: h).
Proof.
  intros Hq H. destruct (quiet_src o x h Hq) as (Q1 & Q2 & Q3 & Q4 & _). constructor.
  - intros i Hi. destruct (s_none _ _ _ H i Hi) as (A & B & C & D).
    rewrite Q1. split; [exact A|]. split; [intros; rewrite Q2; auto|]. split; [exact C|]. intros; rewrite Q3; auto.
  - intros i n Hi. destruct (s_open _ _ _ H i n Hi) as (A & B & C & D).
    rewrite Q1. split; [exact A|]. split; [intros; rewrite Q2; auto|]. split; [exact C|]. intros; rewrite Q3; auto.
  - intros i e keys Hi. destruct (s_act _ _ _ H i e keys Hi) as (A & B). split; [|exact B].
    intros n k. rewrite Q2. apply A.
  - intros i Hi n. rewrite Q2. apply (s_done _ _ _ H i Hi).
  - intros i b ks Hi n. rewrite Q2. apply (s_left _ _ _ H i b ks Hi).
  - exact (s_lt _ _ _ H).
  - exact (s_inj _ _ _ H).
  - intros i k c Hc. rewrite Q3. apply (s_store _ _ _ H i k c Hc).
  - intros n. rewrite Q4. exact (s_reg _ _ _ H n).
Qed.

Lemma vinv_quiet gc s h o x : quiet o x = true -> (forall v ps, (o, x) <> (OPoll v, Given ps)) ->
  vinv gc s h -> vinv gc s ((o, x) :: h).
Proof.
  intros Hq Hg H. destruct (quiet_src o x h Hq) as (_ & _ & _ & _ & Q5 & Q6).
  pose proof (quiet_given o x h Hg) as Q7. constructor.
  - intros v Hv. rewrite Q6, Q7. exact (v_none _ _ _ H v Hv).
  - intros v y Hv. rewrite Q6, Q7, Q5. exact (v_some _ _ _ H v y Hv).
  - exact (v_sorted _ _ _ H).
  - exact (v_in _ _ _ H).
  - exact (v_all _ _ _ H).
  - exact (v_addrs _ _ _ H).
Qed.

(** The source side depends only on registry, sources and cache contents. *)
Lemma sinv_ext gc s s' h :
  (forall n, l_reg s' n = l_reg s n) -> (forall i, l_src s' i = l_src s i) -> l_next s' = l_next s ->
  (forall c, c_store (l_caches s' c) = c_store (l_caches s c)) ->
  sinv gc s h -> sinv gc s' h.
Proof.
  intros E1 E2 E3 E4 H. constructor.
  - intros i. rewrite E2. apply (s_none _ _ _ H).
  - intros i n. rewrite E2. apply (s_open _ _ _ H).
  - intros i e keys. rewrite E2. apply (s_act _ _ _ H).
  - intros i. rewrite E2. apply (s_done _ _ _ H).
  - intros i b ks. rewrite E2. apply (s_left _ _ _ H).
  - intros i k c. rewrite E3. apply (s_lt _ _ _ H).
  - exact (s_inj _ _ _ H).
  - intros i k c. rewrite E4. apply (s_store _ _ _ H).
  - intros n. rewrite E1. pose proof (s_reg _ _ _ H n) as R. destruct (l_reg s n); [|exact R].
    destruct R as (i & k & e & keys & A & B & C). exists i, k, e, keys. rewrite E2. auto.
Qed.

Lemma is_alive_some vs v x : vs v = Some x -> is_alive vs v = v_alive x.
Proof. intros E. unfold is_alive. rewrite E. reflexivity. Qed.

Lemma subs_alive gc s h c : vinv gc s h -> all_alive (is_alive (l_views s)) (inorder (c_subs (l_caches s c))).
Proof.
  intros H. apply Forall_forall. intros e He. destruct (v_in _ _ _ H c e He) as (x & E1 & E2 & _).
  rewrite (is_alive_some _ _ _ E1). exact E2.
Qed.

Lemma subs_nodup gc s h c : vinv gc s h -> NoDup (map fst (inorder (c_subs (l_caches s c)))).
Proof.
  intros H. pose proof (v_sorted _ _ _ H c) as Hs. pose proof (v_in _ _ _ H c) as Hi.
  induction (inorder (c_subs (l_caches s c))) as [|e r IH]; cbn; [constructor|].
  inversion Hs as [|? ? H1 H2]; subst. constructor.
  - intros Hin. apply in_map_iff in Hin as (e' & E & Hin).
    destruct (Hi e (or_introl eq_refl)) as (x & X1 & _ & _ & X4).
    destruct (Hi e' (or_intror Hin)) as (y & Y1 & _ & _ & Y4).
    rewrite E, X1 in Y1. injection Y1 as <-.
    rewrite Forall_forall in H2. specialize (H2 e' Hin). unfold elt in H2. lia.
  - apply IH; [exact H1|]. intros e' He'. apply Hi. right. exact He'.
Qed.

(** ** OPoll. *)
Lemma poll_inv gc s h v x :
  l_views s v = Some x -> v_alive x = true -> sinv gc s h -> vinv gc s h ->
  let s' := set_view s v (mkv (v_cid x) (v_addr x) [] (v_got x ++ v_queue x) true) in
  sinv gc s' ((OPoll v, Given (v_queue x)) :: h) /\ vinv gc s' ((OPoll v, Given (v_queue x)) :: h).
Proof.
  intros Hv Ha HS HV s'. split.
  - apply sinv_quiet; [reflexivity|]. eapply sinv_ext; [..|exact HS]; reflexivity.
  - constructor.
    + intros w Hw. unfold s', set_view in Hw. cbn in Hw. unfold updn in Hw.
      dn w v Hne; [discriminate|].
      destruct (v_none _ _ _ HV w Hw) as [A B]. cbn. rewrite (proj2 (Nat.eqb_neq w v) Hne).
      rewrite app_nil_r. auto.
    + intros w y Hw. unfold s', set_view in Hw. cbn in Hw. unfold updn in Hw. cbn.
      dn w v Hne.
      * injection Hw as <-. cbn. destruct (v_some _ _ _ HV v x Hv) as (A & B & i & k & l & C & D & E).
        split; [exact A|]. split; [rewrite B; reflexivity|].
        exists i, k, l. split; [exact C|]. split; [exact D|]. intros _. rewrite app_nil_r. exact (E Ha).
      * destruct (v_some _ _ _ HV w y Hw) as (A & B & R). rewrite app_nil_r. auto.
    + exact (v_sorted _ _ _ HV).
    + intros c e He. destruct (v_in _ _ _ HV c e He) as (y & A & B & C & D).
      unfold s', set_view. cbn. unfold updn.
      destruct (Nat.eqb_spec (fst e) v) as [E|]; [|exists y; auto].
      rewrite E, Hv in A. injection A as <-. eexists. split; [reflexivity|]. cbn. auto.
    + intros w y Hw Hy. unfold s', set_view in Hw |- *. cbn in *. unfold updn in Hw.
      dn w v Hne; [|exact (v_all _ _ _ HV w y Hw Hy)].
      injection Hw as <-. cbn. exact (v_all _ _ _ HV v x Hv Ha).
    + intros a b y z Hy Hz Ly Lz E. unfold s', set_view in Hy, Hz. cbn in *. unfold updn in Hy, Hz.
      dn a v Na; dn b v Nb; [reflexivity|..].
      * injection Hy as <-. cbn in E. eapply (v_addrs _ _ _ HV v b x z); eauto.
      * injection Hz as <-. cbn in E. eapply (v_addrs _ _ _ HV a v y x); eauto.
      * eapply (v_addrs _ _ _ HV a b y z); eauto.
Qed.

(** ** OLeave. *)
Lemma leave_inv shape gc s h v x : keeps_order shape ->
  l_views s v = Some x -> v_alive x = true -> sinv gc s h -> vinv gc s h ->
  let c := l_caches s (v_cid x) in
  let es := set_erase (is_alive (l_views s)) (v, v_addr x) (c_subs c) in
  let s' := set_view (set_cache s (v_cid x) (mkcache (c_store c) (shape (l_next s) es))) v
               (mkv (v_cid x) (v_addr x) (v_queue x) (v_got x) false) in
  sinv gc s' ((OLeave v, Done) :: h) /\ vinv gc s' ((OLeave v, Done) :: h).
Proof.
  intros Hsh Hv Ha HS HV c es s'.
  assert (Hin := v_all _ _ _ HV v x Hv Ha). fold c in Hin.
  apply in_split in Hin as (l1 & l2 & Hsp).
  pose proof (v_sorted _ _ _ HV (v_cid x)) as Hso. fold c in Hso.
  pose proof (subs_alive _ _ _ (v_cid x) HV) as Hal. fold c in Hal.
  assert (Hes : es = l1 ++ l2).
  { unfold es. apply set_erase_ok; auto. cbn. rewrite (is_alive_some _ _ _ Hv). exact Ha. }
  assert (Hso' := Hso). rewrite Hsp in Hso'. apply sorted_app in Hso' as (S1 & S2 & S3 & S4).
  split.
  - apply sinv_quiet; [reflexivity|]. eapply sinv_ext; [..|exact HS]; try reflexivity.
    intros d. unfold s', set_view, set_cache. cbn. unfold updn.
    dn d (v_cid x) Nq; reflexivity.
  - apply vinv_quiet; [reflexivity|intros; discriminate|]. constructor.
    + intros w Hw. unfold s' in Hw. cbn in Hw. unfold updn in Hw.
      dn w v Hne; [discriminate|]. exact (v_none _ _ _ HV w Hw).
    + intros w y Hw. unfold s' in Hw. cbn in Hw. unfold updn in Hw.
      dn w v Hne; [|exact (v_some _ _ _ HV w y Hw)].
      injection Hw as <-. cbn. destruct (v_some _ _ _ HV v x Hv) as (A & B & i & k & l & C & D & E).
      split; [exact A|]. split; [exact B|]. exists i, k, l. split; [exact C|]. split; [exact D|]. discriminate.
    + intros d. unfold s'. cbn. unfold updn. dn d (v_cid x) Nq; cbn.
      * rewrite Hsh, Hes. clear - S1 S2 S3 S4. unfold sorted in *.
        induction l1 as [|y l1 IH]; cbn; [exact S2|]. inversion S1; subst. inversion S3; subst.
        constructor; [apply IH; assumption|]. apply Forall_app. split; [assumption|].
        eapply Forall_impl; [|exact S4]. unfold elt. cbn in *. intros. lia.
      * exact (v_sorted _ _ _ HV d).
    + intros d e He. unfold s' in He |- *. cbn in *. unfold updn in *.
      assert (Hd : In e (inorder (c_subs (l_caches s d))) /\ fst e <> v).
      { dn d (v_cid x) Hne; cbn in He.
        - rewrite Hsh, Hes in He. fold c. rewrite Hsp.
          assert (Hin : In e (l1 ++ (v, v_addr x) :: l2)).
          { apply in_app_or in He. apply in_or_app. destruct He; [left|right; right]; assumption. }
          split; [exact Hin|]. intros Hf.
          assert (X : In e (inorder (c_subs (l_caches s (v_cid x))))) by (fold c; rewrite Hsp; exact Hin).
          destruct (v_in _ _ _ HV (v_cid x) e X) as (y & Y1 & _ & _ & Y4).
          rewrite Hf, Hv in Y1. injection Y1 as <-.
          apply in_app_or in He as [He|He].
          + rewrite Forall_forall in S3. specialize (S3 e He). cbn in S3. lia.
          + rewrite Forall_forall in S4. specialize (S4 e He). cbn in S4. lia.
        - split; [exact He|]. intros Hf. destruct (v_in _ _ _ HV d e He) as (y & Y1 & _ & Y3 & _).
          rewrite Hf, Hv in Y1. injection Y1 as <-. congruence. }
      destruct Hd as [Hd Hf]. destruct (v_in _ _ _ HV d e Hd) as (y & Y).
      rewrite (proj2 (Nat.eqb_neq (fst e) v) Hf). exists y. exact Y.
    + intros w y Hw Hy. unfold s' in Hw |- *. cbn in *. unfold updn in *.
      dn w v Hne; [injection Hw as <-; discriminate Hy|].
      pose proof (v_all _ _ _ HV w y Hw Hy) as Hin.
      destruct (Nat.eqb_spec (v_cid y) (v_cid x)) as [E|]; [|exact Hin]. cbn. rewrite Hsh, Hes.
      rewrite E in Hin. fold c in Hin. rewrite Hsp in Hin. apply in_app_or in Hin. apply in_or_app.
      destruct Hin as [Hin|[Hin|Hin]]; auto. injection Hin as E1 _. congruence.
    + intros a b y z Hy Hz Ly Lz E. unfold s' in Hy, Hz. cbn in *. unfold updn in Hy, Hz.
      dn a v Na; [injection Hy as <-; discriminate Ly|].
      dn b v Nb; [injection Hz as <-; discriminate Lz|].
      eapply (v_addrs _ _ _ HV a b y z); eauto.
Qed.

(** ** OPlay. *)
Lemma play_src v a n h :
  (forall i, edge_name i ((OPlay v a n, Done) :: h) = edge_name i h) /\
  (forall i m, holds i m ((OPlay v a n, Done) :: h) = holds i m h) /\
  (forall i k, puts i k ((OPlay v a n, Done) :: h) = puts i k h) /\
  (forall m, owner m ((OPlay v a n, Done) :: h) = owner m h).
Proof. cbn. auto. Qed.

Lemma sinv_play gc s h v a n : sinv gc s h -> sinv gc s ((OPlay v a n, Done) :: h).
Proof.
  intros H. constructor; cbn.
  - exact (s_none _ _ _ H).
  - exact (s_open _ _ _ H).
  - exact (s_act _ _ _ H).
  - exact (s_done _ _ _ H).
  - exact (s_left _ _ _ H).
  - exact (s_lt _ _ _ H).
  - exact (s_inj _ _ _ H).
  - exact (s_store _ _ _ H).
  - exact (s_reg _ _ _ H).
Qed.

Lemma play_inv shape gc s h v addr name cid : keeps_order shape ->
  l_views s v = None -> l_reg s name = Some cid -> fresh_addr s addr -> sinv gc s h -> vinv gc s h ->
  let c := l_caches s cid in
  let x := mkv cid addr (st_dump (c_store c)) [] true in
  let vs := updn (l_views s) v (Some x) in
  let subs := match set_insert (is_alive vs) (v, addr) (c_subs c) None with
              | Some t => shape (l_next s) (inorder t)
              | None => c_subs c
              end in
  let s' := set_cache (set_view s v x) cid (mkcache (c_store c) subs) in
  sinv gc s' ((OPlay v addr name, Done) :: h) /\ vinv gc s' ((OPlay v addr name, Done) :: h).
Proof.
  intros Hsh Hv Hr Hf HS HV c x vs subs s'.
  assert (Halive : all_alive (is_alive vs) (inorder (c_subs c))).
  { apply Forall_forall. intros e He. destruct (v_in _ _ _ HV cid e He) as (y & Y1 & Y2 & _).
    unfold is_alive, vs, updn. destruct (Nat.eqb_spec (fst e) v) as [_|]; [reflexivity|].
    rewrite Y1. exact Y2. }
  destruct (set_insert_ok (is_alive vs) (v, addr) (c_subs c)) with (j := @None entry)
    as (t & l1 & l2 & E1 & E2 & E3 & E4).
  - cbn. unfold is_alive, vs, updn. rewrite Nat.eqb_refl. reflexivity.
  - discriminate.
  - exact Halive.
  - exact (v_sorted _ _ _ HV cid).
  - intros e He. destruct (v_in _ _ _ HV cid e He) as (y & Y1 & Y2 & _ & Y4). cbn.
    rewrite <- Y4. exact (Hf _ _ Y1 Y2).
  - assert (Hsubs : inorder subs = l1 ++ (v, addr) :: l2).
    { unfold subs. rewrite E1, Hsh. exact E3. }
    split.
    + apply sinv_play. eapply sinv_ext; [..|exact HS]; try reflexivity.
      intros d. unfold s'. cbn. unfold updn. dn d cid Nq; reflexivity.
    + pose proof (s_reg _ _ _ HS name) as R. rewrite Hr in R.
      destruct R as (i & k & e & keys & R1 & R2 & R3).
      destruct (s_act _ _ _ HS i e keys R2) as [_ G]. specialize (G k). rewrite R3 in G. cbn in G.
      constructor.
      * intros w Hw. unfold s' in Hw. cbn in Hw. unfold updn in Hw.
        dn w v Hne; [discriminate|]. cbn.
        rewrite (proj2 (Nat.eqb_neq w v) Hne). cbn. exact (v_none _ _ _ HV w Hw).
      * intros w y Hw. unfold s' in Hw. cbn in Hw. unfold updn in Hw. cbn.
        dn w v Hne.
        -- injection Hw as <-. destruct (v_none _ _ _ HV v Hv) as [A B]. cbn. rewrite A, B, R1.
           split; [reflexivity|]. split; [reflexivity|].
           eexists _, _, _. split; [reflexivity|]. split; [exact G|]. intros _.
           apply store_inv_dump. exact (s_store _ _ _ HS _ _ _ G).
        -- cbn. exact (v_some _ _ _ HV w y Hw).
      * intros d. unfold s'. cbn. unfold updn. dn d cid Nq; cbn.
        -- rewrite Hsubs. exact E4.
        -- exact (v_sorted _ _ _ HV d).
      * intros d e' He. unfold s' in He |- *. cbn in *. unfold updn in *.
        dn d cid Hne; cbn in He.
        -- rewrite Hsubs in He. apply in_app_or in He.
           assert (Hor : e' = (v, addr) \/ In e' (inorder (c_subs c))).
           { rewrite E2. destruct He as [He|[He|He]]; [right; apply in_or_app; auto|left; congruence|right; apply in_or_app; auto]. }
           destruct Hor as [->|Hin].
           ++ cbn. rewrite Nat.eqb_refl. exists x. cbn. auto.
           ++ destruct (v_in _ _ _ HV cid e' Hin) as (y & Y1 & Y). 
              destruct (Nat.eqb_spec (fst e') v) as [E|]; [congruence|]. exists y. auto.
        -- destruct (v_in _ _ _ HV d e' He) as (y & Y1 & Y).
           destruct (Nat.eqb_spec (fst e') v) as [E|]; [congruence|]. exists y. auto.
      * intros w y Hw Hy. unfold s' in Hw |- *. cbn in *. unfold updn in *.
        dn w v Hne.
        -- injection Hw as <-. cbn. rewrite Nat.eqb_refl. cbn. rewrite Hsubs.
           apply in_or_app. right. left. reflexivity.
        -- pose proof (v_all _ _ _ HV w y Hw Hy) as Hin.
           destruct (Nat.eqb_spec (v_cid y) cid) as [E|]; [|exact Hin]. cbn. rewrite Hsubs.
           rewrite E in Hin. fold c in Hin. rewrite E2 in Hin. apply in_app_or in Hin.
           apply in_or_app. destruct Hin; [left|right; right]; assumption.
      * intros a b y z Hy Hz Ly Lz E. unfold s' in Hy, Hz. cbn in *. unfold updn in Hy, Hz.
        dn a v Na; dn b v Nb; [reflexivity|..].
        -- injection Hy as <-. cbn in E. exfalso. exact (Hf b z Hz Lz (eq_sym E)).
        -- injection Hz as <-. cbn in E. exfalso. exact (Hf a y Hy Ly E).
        -- eapply (v_addrs _ _ _ HV a b y z); eauto.
Qed.

(** ** OPut. *)
Lemma put_inv shape gc s h i m e keys n cid p : keeps_order shape ->
  l_src s i = Some (SActive e keys) -> nth_error keys m = Some (n, cid) -> sinv gc s h -> vinv gc s h ->
  let s' := cache_put shape s cid p in
  sinv gc s' ((OPut i m p, Done) :: h) /\ vinv gc s' ((OPut i m p, Done) :: h).
Proof.
  intros Hsh Hi Hk HS HV s'.
  destruct (s_act _ _ _ HS i e keys Hi) as [_ G]. specialize (G m). rewrite Hk in G. cbn in G.
  destruct (publish_to_ok (inorder (c_subs (l_caches s cid))) p (l_views s)
              (subs_alive _ _ _ _ HV) (subs_nodup _ _ _ _ HV)) as [P1 P2].
  assert (Hs' : s' = mkl (l_reg s) (l_edges s) (l_next s)
      (updn (l_caches s) cid (mkcache (st_put (c_store (l_caches s cid)) p)
         (shape (l_next s) (inorder (c_subs (l_caches s cid))))))
      (l_src s) (fst (publish_to (l_views s) (inorder (c_subs (l_caches s cid))) p))).
  { unfold s', cache_put. destruct (publish_to _ _ p) as [vs es]. cbn in *. rewrite P1. reflexivity. }
  assert (HW : forall w, l_views s' w =
    match l_views s w with
    | Some x => Some (if v_alive x && Nat.eqb (v_cid x) cid then push x p else x)
    | None => None
    end).
  { intros w. rewrite Hs'. cbn. rewrite P2. destruct (existsb _ _) eqn:Eb.
    - apply existsb_exists in Eb as (e' & Hin & He). apply Nat.eqb_eq in He.
      destruct (v_in _ _ _ HV cid e' Hin) as (x & X1 & X2 & X3 & X4). rewrite He, X1. cbn.
      rewrite X2, X3, Nat.eqb_refl. reflexivity.
    - destruct (l_views s w) as [x|] eqn:Ew; [|reflexivity].
      destruct (v_alive x) eqn:Ea; [cbn|reflexivity].
      destruct (Nat.eqb_spec (v_cid x) cid) as [Ec|]; [|reflexivity]. exfalso.
      pose proof (v_all _ _ _ HV w x Ew Ea) as Hin. rewrite Ec in Hin.
      assert (X : existsb (fun e0 => Nat.eqb w (fst e0)) (inorder (c_subs (l_caches s cid))) = true).
      { apply existsb_exists. eexists. split; [exact Hin|]. cbn. apply Nat.eqb_refl. }
      rewrite X in Eb. discriminate. }
  assert (HSub : forall d, inorder (c_subs (l_caches s' d)) = inorder (c_subs (l_caches s d))).
  { intros d. rewrite Hs'. cbn. unfold updn. dn d cid Nq; [|reflexivity].
    cbn. apply Hsh. }
  split.
  - constructor.
    + intros j Hj. rewrite Hs' in Hj. cbn in Hj. destruct (s_none _ _ _ HS j Hj) as (A & B & C & D). cbn.
      split; [exact A|]. split; [exact B|]. split; [exact C|]. intros k. rewrite D.
      dn j i Nq; [congruence|reflexivity].
    + intros j n' Hj. rewrite Hs' in Hj. cbn in Hj. destruct (s_open _ _ _ HS j n' Hj) as (A & B & C & D). cbn.
      split; [exact A|]. split; [exact B|]. split; [exact C|]. intros k. rewrite D.
      dn j i Nq; [congruence|reflexivity].
    + intros j e' keys' Hj. rewrite Hs' in Hj. cbn in Hj. exact (s_act _ _ _ HS j e' keys' Hj).
    + intros j Hj. rewrite Hs' in Hj. cbn in Hj. exact (s_done _ _ _ HS j Hj).
    + intros j b ks Hj. rewrite Hs' in Hj. cbn in Hj. exact (s_left _ _ _ HS j b ks Hj).
    + rewrite Hs'. cbn. exact (s_lt _ _ _ HS).
    + exact (s_inj _ _ _ HS).
    + intros j k c Hc. rewrite Hs'. cbn. unfold updn.
      dn c cid Hne.
      * destruct (s_inj _ _ _ HS _ _ _ _ _ Hc G) as [-> ->]. rewrite !Nat.eqb_refl. cbn.
        apply store_inv_put. exact (s_store _ _ _ HS _ _ _ G).
      * assert (Nat.eqb j i && Nat.eqb k m = false) as ->.
        { dn j i Nq; [|reflexivity]. dn k m Nq; [|reflexivity]. congruence. }
        rewrite app_nil_r. exact (s_store _ _ _ HS _ _ _ Hc).
    + intros n'. rewrite Hs'. cbn. pose proof (s_reg _ _ _ HS n') as R. exact R.
  - constructor.
    + intros w Hw. rewrite HW in Hw. cbn. destruct (l_views s w) eqn:Ew; [discriminate|].
      exact (v_none _ _ _ HV w Ew).
    + intros w y Hw. rewrite HW in Hw. cbn. destruct (l_views s w) as [x|] eqn:Ew; [|discriminate].
      injection Hw as <-. destruct (v_some _ _ _ HV w x Ew) as (A & B & j & k & l & C & D & E).
      split; [exact A|]. rewrite C.
      destruct (v_alive x) eqn:Ea; cbn [andb].
      * destruct (Nat.eqb_spec (v_cid x) cid) as [Ec|Hne].
        -- split; [exact B|]. rewrite Ec in D. destruct (s_inj _ _ _ HS _ _ _ _ _ D G) as [-> ->].
           rewrite !Nat.eqb_refl. cbn. eexists _, _, _. split; [reflexivity|]. rewrite Ec. split; [exact D|].
           intros _. rewrite app_assoc. rewrite (E eq_refl). reflexivity.
        -- split; [exact B|].
           assert (Nat.eqb j i && Nat.eqb k m = false) as ->.
           { dn j i Nq; [|reflexivity]. dn k m Nq; [|reflexivity]. congruence. }
           rewrite app_nil_r. eexists _, _, _. split; [reflexivity|]. auto.
      * split; [exact B|]. eexists _, _, _. split; [reflexivity|]. split; [exact D|]. congruence.
    + intros d. rewrite HSub. exact (v_sorted _ _ _ HV d).
    + intros d e' He. rewrite HSub in He. destruct (v_in _ _ _ HV d e' He) as (x & X1 & X2 & X3 & X4).
      rewrite HW, X1. eexists. split; [reflexivity|]. destruct (v_alive x && (v_cid x =? cid)%nat); cbn; auto.
    + intros w y Hw Hy. rewrite HW in Hw. destruct (l_views s w) as [x|] eqn:Ew; [|discriminate].
      injection Hw as <-. rewrite HSub.
      assert (Ea : v_alive x = true) by (destruct (v_alive x && (v_cid x =? cid)%nat); cbn in Hy; exact Hy).
      pose proof (v_all _ _ _ HV w x Ew Ea) as Hin.
      destruct (v_alive x && (v_cid x =? cid)%nat); cbn; exact Hin.
    + intros a b y z Hy Hz Ly Lz E. rewrite HW in Hy, Hz.
      destruct (l_views s a) as [xa|] eqn:Ea; [|discriminate]. destruct (l_views s b) as [xb|] eqn:Eb; [|discriminate].
      injection Hy as <-. injection Hz as <-.
      apply (v_addrs _ _ _ HV a b xa xb Ea Eb).
      * destruct (v_alive xa && (v_cid xa =? cid)%nat); cbn in Ly; exact Ly.
      * destruct (v_alive xb && (v_cid xb =? cid)%nat); cbn in Lz; exact Lz.
      * destruct (v_alive xa && (v_cid xa =? cid)%nat), (v_alive xb && (v_cid xb =? cid)%nat); cbn in E; exact E.
Qed.

(** ** Source events leave viewers alone. *)
Definition src_event (o : op) : bool :=
  match o with OPublish _ _ | OSrtPublish _ _ | OEdgeStart _ _ | OEdgeOpen _ | OEnd _ | OEdgeDrop _ => true | _ => false end.

Lemma src_event_views o h v : src_event o = true ->
  seen v ((o, Done) :: h) = seen v h /\ nplays v ((o, Done) :: h) = nplays v h /\ given v ((o, Done) :: h) = given v h.
Proof. destruct o; cbn; intros; try discriminate; auto. Qed.

Lemma vinv_src gc gc' s s' h o : src_event o = true ->
  (forall i k c, gc i k = Some c -> gc' i k = Some c) ->
  (forall v, l_views s' v = l_views s v) ->
  (forall c, c_subs (l_caches s' c) = c_subs (l_caches s c) \/
             (c_subs (l_caches s' c) = Lf /\ forall i k, gc i k <> Some c)) ->
  vinv gc s h -> vinv gc' s' ((o, Done) :: h).
Proof.
  intros Ho Hg Hv Hc H.
  assert (Hsub : forall c e, In e (inorder (c_subs (l_caches s' c))) -> In e (inorder (c_subs (l_caches s c)))).
  { intros c e He. destruct (Hc c) as [E|[E _]]; rewrite E in He; [exact He|contradiction He]. }
  constructor.
  - intros v. rewrite Hv. destruct (src_event_views o h v Ho) as (_ & -> & ->). exact (v_none _ _ _ H v).
  - intros v x. rewrite Hv. destruct (src_event_views o h v Ho) as (-> & -> & ->). intros Ex.
    destruct (v_some _ _ _ H v x Ex) as (A & B & i & k & l & C & D & E).
    split; [exact A|]. split; [exact B|]. exists i, k, l. auto.
  - intros c. destruct (Hc c) as [E|[E _]]; rewrite E; [exact (v_sorted _ _ _ H c)|constructor].
  - intros c e He. rewrite Hv. exact (v_in _ _ _ H c e (Hsub c e He)).
  - intros v x. rewrite Hv. intros Ex Ea. destruct (Hc (v_cid x)) as [E|[_ E]].
    + rewrite E. exact (v_all _ _ _ H v x Ex Ea).
    + exfalso. destruct (v_some _ _ _ H v x Ex) as (_ & _ & i & k & l & _ & D & _). exact (E i k D).
  - intros v w x y. rewrite !Hv. exact (v_addrs _ _ _ H v w x y).
Qed.

Definition setg (gc : nat -> nat -> option nat) (i k c : nat) : nat -> nat -> option nat :=
  fun j m => if Nat.eqb j i && Nat.eqb m k then Some c else gc j m.

Lemma eqb_list_true a b : eqb_list a b = true -> a = b.
Proof. apply eqb_list_spec. Qed.
Lemma eqb_list_false a b : eqb_list a b = false -> a <> b.
Proof. intros H E. rewrite (proj2 (eqb_list_spec a b) E) in H. discriminate. Qed.

Lemma key1_iff (name : list Z) (c : nat) n k :
  (exists d, nth_error [(name, c)] k = Some (n, d)) <-> (n = name /\ k = 0%nat).
Proof.
  destruct k as [|k]; cbn.
  - split; [intros (d & E); injection E as -> _; auto|intros [-> _]; eauto].
  - split; [intros (d & E); destruct k; discriminate|intros [_ E]; discriminate].
Qed.

(** A source takes one name: OPublish and OEdgeOpen. *)
Lemma take_inv gc s h i name e o :
  (o = OPublish i name /\ l_src s i = None) \/ (o = OEdgeOpen i /\ l_src s i = Some (SOpening name)) ->
  sinv gc s h -> vinv gc s h ->
  let s' := set_src (new_cache s name (SGop gop0)) i (SActive e [(name, l_next s)]) in
  let gc' := setg gc i 0 (l_next s) in
  sinv gc' s' ((o, Done) :: h) /\ vinv gc' s' ((o, Done) :: h).
Proof.
  intros Ho HS HV s' gc'.
  assert (Hi : (forall n, holds i n h = None) /\ (forall k, gc i k = None) /\ (forall k, puts i k h = [])).
  { destruct Ho as [[_ Ho]|[_ Ho]].
    - destruct (s_none _ _ _ HS i Ho) as (_ & A); exact A.
    - destruct (s_open _ _ _ HS i name Ho) as (_ & A); exact A. }
  destruct Hi as (I1 & I2 & I3).
  assert (Hholds : forall j n, holds j n ((o, Done) :: h) =
     if Nat.eqb j i && eqb_list n name then Some 0%nat else holds j n h).
  { intros j n. destruct Ho as [[-> _]|[-> Ho]]; cbn; [reflexivity|].
    destruct (s_open _ _ _ HS i name Ho) as (A & _). rewrite A.
    destruct (Nat.eqb j i); cbn; [|reflexivity]. destruct (eqb_list n name); reflexivity. }
  assert (Hedge : forall j, edge_name j ((o, Done) :: h) = edge_name j h).
  { destruct Ho as [[-> _]|[-> _]]; reflexivity. }
  assert (Hputs : forall j k, puts j k ((o, Done) :: h) = puts j k h).
  { destruct Ho as [[-> _]|[-> _]]; reflexivity. }
  assert (Howner : forall n, owner n ((o, Done) :: h) = if eqb_list n name then Some (i, 0%nat) else owner n h).
  { intros n. pose proof (Hholds i n) as X. rewrite Nat.eqb_refl in X. cbn [andb] in X. rewrite I1 in X.
    destruct Ho as [[-> _]|[-> _]]; cbn [owner]; rewrite X; destruct (eqb_list n name); reflexivity. }
  assert (Hlt : forall j m c, gc j m = Some c -> c <> l_next s).
  { intros j m c Hc. pose proof (s_lt _ _ _ HS _ _ _ Hc). lia. }
  split.
  - constructor.
    + intros j Hj. unfold s' in Hj. cbn in Hj. unfold updn in Hj.
      dn j i Hne; [discriminate|].
      destruct (s_none _ _ _ HS j Hj) as (A & B & C & D). rewrite Hedge. split; [exact A|].
      split; [intros n; rewrite Hholds, (proj2 (Nat.eqb_neq j i) Hne); cbn; apply B|].
      split; [intros k; unfold gc', setg; rewrite (proj2 (Nat.eqb_neq j i) Hne); cbn; apply C|].
      intros k. rewrite Hputs. apply D.
    + intros j n' Hj. unfold s' in Hj. cbn in Hj. unfold updn in Hj.
      dn j i Hne; [discriminate|].
      destruct (s_open _ _ _ HS j n' Hj) as (A & B & C & D). rewrite Hedge. split; [exact A|].
      split; [intros n; rewrite Hholds, (proj2 (Nat.eqb_neq j i) Hne); cbn; apply B|].
      split; [intros k; unfold gc', setg; rewrite (proj2 (Nat.eqb_neq j i) Hne); cbn; apply C|].
      intros k. rewrite Hputs. apply D.
    + intros j e' keys Hj. unfold s' in Hj. cbn in Hj. unfold updn in Hj.
      dn j i Hne.
      * injection Hj as <- <-. split.
        -- intros n k. rewrite Hholds, Nat.eqb_refl, I1. cbn [andb]. rewrite key1_iff.
           destruct (eqb_list n name) eqn:En.
           ++ apply eqb_list_true in En. subst n. split; [intros X; injection X as <-; auto|intros [_ ->]; reflexivity].
           ++ apply eqb_list_false in En. split; [discriminate|intros [X _]; contradiction].
        -- intros k. unfold gc', setg. rewrite Nat.eqb_refl. destruct k as [|k]; cbn; [reflexivity|].
           rewrite I2. destruct k; reflexivity.
      * destruct (s_act _ _ _ HS j e' keys Hj) as [A B]. split.
        -- intros n k. rewrite Hholds, (proj2 (Nat.eqb_neq j i) Hne). cbn. apply A.
        -- intros k. unfold gc', setg. rewrite (proj2 (Nat.eqb_neq j i) Hne). cbn. apply B.
    + intros j Hj n. unfold s' in Hj. cbn in Hj. unfold updn in Hj.
      dn j i Hne; [discriminate|].
      rewrite Hholds, (proj2 (Nat.eqb_neq j i) Hne). cbn. exact (s_done _ _ _ HS j Hj n).
    + intros j b ks Hj n. unfold s' in Hj. cbn in Hj. unfold updn in Hj.
      dn j i Hne; [discriminate|].
      rewrite Hholds, (proj2 (Nat.eqb_neq j i) Hne). cbn. exact (s_left _ _ _ HS j b ks Hj n).
    + intros j k c. unfold gc', setg. unfold s'. cbn.
      destruct (Nat.eqb j i && Nat.eqb k 0); [intros X; injection X as <-; lia|].
      intros Hc. pose proof (s_lt _ _ _ HS _ _ _ Hc). lia.
    + intros j k j' k' c. unfold gc', setg.
      destruct (Nat.eqb j i && Nat.eqb k 0) eqn:E1; destruct (Nat.eqb j' i && Nat.eqb k' 0) eqn:E2; intros H1 H2.
      * apply andb_true_iff in E1 as [E1 E1']. apply andb_true_iff in E2 as [E2 E2']. eqn. auto.
      * injection H1 as <-. exfalso. exact (Hlt _ _ _ H2 eq_refl).
      * injection H2 as <-. exfalso. exact (Hlt _ _ _ H1 eq_refl).
      * exact (s_inj _ _ _ HS _ _ _ _ _ H1 H2).
    + intros j k c Hc. rewrite Hputs. unfold gc', setg in Hc. unfold s'. cbn. unfold updn.
      destruct (Nat.eqb j i && Nat.eqb k 0) eqn:E1.
      * injection Hc as <-. rewrite Nat.eqb_refl. cbn. apply andb_true_iff in E1 as [E1 E1']. eqn.
        rewrite I3. cbn. exists gop0. split; [reflexivity|exact gop_inv0].
      * rewrite (proj2 (Nat.eqb_neq c (l_next s)) (Hlt _ _ _ Hc)). exact (s_store _ _ _ HS _ _ _ Hc).
    + intros n. rewrite Howner. unfold s'. cbn. unfold updk.
      destruct (eqb_list n name) eqn:En.
      * apply eqb_list_true in En. subst n. exists i, 0%nat, e, [(name, l_next s)].
        split; [reflexivity|]. split; [unfold updn; rewrite Nat.eqb_refl; reflexivity|reflexivity].
      * pose proof (s_reg _ _ _ HS n) as R. destruct (l_reg s n) as [c|]; [|exact R].
        destruct R as (j & k & e' & keys & A & B & C). exists j, k, e', keys. split; [exact A|].
        split; [|exact C]. unfold updn. dn j i Nq; [|exact B].
        destruct Ho as [[_ Ho]|[_ Ho]]; congruence.
  - apply vinv_src with (gc := gc) (s := s); auto.
    + destruct Ho as [[-> _]|[-> _]]; reflexivity.
    + intros j k c Hc. unfold gc', setg. dn j i Nq; cbn; [|exact Hc].
      rewrite I2 in Hc. discriminate.
    + intros c. unfold s'. cbn. unfold updn. dn c (l_next s) Nq; [right|left; reflexivity].
      split; [reflexivity|]. intros j k Hc. exact (Hlt _ _ _ Hc eq_refl).
Qed.
