(** Lemmas for P_Co.v. *)
From Verif Require Import Base M_Co S_Co.

Lemma who_eqb_spec a b : who_eqb a b = true <-> a = b.
Proof.
  destruct a, b; cbn; split; intros H; try discriminate; try reflexivity.
  - apply Nat.eqb_eq in H. congruence.
  - injection H as ->. apply Nat.eqb_refl.
Qed.
Lemma who_refl a : who_eqb a a = true. Proof. apply who_eqb_spec. reflexivity. Qed.
Lemma who_dec a b : who_eqb a b = false <-> a <> b.
Proof. destruct (who_eqb a b) eqn:E; split; intros H; try discriminate; try congruence. apply who_eqb_spec in E. congruence. intros ->. rewrite who_refl in E. discriminate. Qed.

Lemma hold_ref s w h w' h' : has_ref (hold s w h) w' h' = has_ref s w' h' || (who_eqb w w' && Nat.eqb h h').
Proof.
  unfold hold. destruct (has_ref s w h) eqn:E.
  - destruct (who_eqb w w' && Nat.eqb h h') eqn:F; [|rewrite orb_false_r; reflexivity]. apply andb_true_iff in F. destruct F as (F1 & F2).
    apply who_eqb_spec in F1. apply Nat.eqb_eq in F2. subst. rewrite E. reflexivity.
  - unfold has_ref. cbn [k_refs existsb fst snd]. apply orb_comm.
Qed.
Lemma filter_ref l w h w' h' : existsb (fun x => who_eqb (fst x) w' && Nat.eqb (snd x) h') (filter (fun x => negb (who_eqb (fst x) w && Nat.eqb (snd x) h)) l) =
  existsb (fun x => who_eqb (fst x) w' && Nat.eqb (snd x) h') l && negb (who_eqb w w' && Nat.eqb h h').
Proof.
  induction l as [|[a g] l IH]; [reflexivity|]. cbn [filter fst snd existsb]. destruct (who_eqb a w && Nat.eqb g h) eqn:E; cbn [negb].
  - rewrite IH. apply andb_true_iff in E. destruct E as (E1 & E2). apply who_eqb_spec in E1. apply Nat.eqb_eq in E2. subst a g.
    destruct (who_eqb w w' && Nat.eqb h h'); cbn [negb]; rewrite ?andb_false_r, ?orb_false_l; reflexivity.
  - cbn [existsb fst snd]. rewrite IH. destruct (who_eqb a w' && Nat.eqb g h') eqn:F; [|reflexivity]. cbn [orb].
    apply andb_true_iff in F. destruct F as (F1 & F2). apply who_eqb_spec in F1. apply Nat.eqb_eq in F2. subst a g.
    destruct (who_eqb w w' && Nat.eqb h h') eqn:G; [|reflexivity]. apply andb_true_iff in G. destruct G as (G1 & G2). apply who_eqb_spec in G1. apply Nat.eqb_eq in G2. subst.
    rewrite who_refl, Nat.eqb_refl in E. discriminate.
Qed.
Lemma let_ref s w h w' h' : has_ref (let_go s w h) w' h' = has_ref s w' h' && negb (who_eqb w w' && Nat.eqb h h').
Proof.
  unfold let_go. destruct (has_ref s w h) eqn:E.
  - match goal with |- context [if ?c then _ else _] => destruct c end; unfold has_ref; cbn [k_refs]; apply filter_ref.
  - destruct (who_eqb w w' && Nat.eqb h h') eqn:F; cbn [negb]; [|rewrite andb_true_r; reflexivity]. apply andb_true_iff in F. destruct F as (F1 & F2).
    apply who_eqb_spec in F1. apply Nat.eqb_eq in F2. subst. rewrite E. reflexivity.
Qed.
Lemma alive_ref s h : alive s h = true <-> exists w, has_ref s w h = true.
Proof.
  unfold alive, has_ref. split.
  - intros H. apply existsb_exists in H. destruct H as ((w & g) & Hin & H). cbn [snd] in H. exists w. apply existsb_exists. exists (w, g). cbn [fst snd].
    rewrite who_refl, H. auto.
  - intros (w & H). apply existsb_exists in H. destruct H as ((w' & g) & Hin & H). apply andb_true_iff in H. apply existsb_exists. exists (w', g). cbn [fst snd] in *. tauto.
Qed.
Lemma hold_rest s w h : k_co (hold s w h) = k_co s /\ k_thr (hold s w h) = k_thr s /\ k_ids (hold s w h) = k_ids s /\ k_next (hold s w h) = k_next s /\ k_seen (hold s w h) = k_seen s.
Proof. unfold hold. destruct (has_ref s w h); repeat split. Qed.
Lemma let_rest s w h : k_co (let_go s w h) = k_co s /\ k_thr (let_go s w h) = k_thr s /\ k_ids (let_go s w h) = k_ids s /\ k_next (let_go s w h) = k_next s.
Proof. unfold let_go. destruct (has_ref s w h); [|repeat split]. match goal with |- context [if ?c then _ else _] => destruct c end; repeat split. Qed.
(** The last reference closes. *)
Lemma let_last s w h : has_ref s w h = true -> (forall w', w' <> w -> has_ref s w' h = false) -> k_seen (let_go s w h) = BClose h :: k_seen s.
Proof.
  intros E F. unfold let_go. rewrite E. match goal with |- context [if ?c then _ else _] => destruct c eqn:C end; [|reflexivity]. exfalso.
  apply alive_ref in C. destruct C as (w' & C). unfold has_ref in C. cbn [k_refs] in C. rewrite filter_ref in C. apply andb_true_iff in C. destruct C as (C1 & C2).
  destruct (who_eqb w w') eqn:W.
  - rewrite Nat.eqb_refl in C2. discriminate.
  - apply who_dec in W. fold (has_ref s w' h) in C1. rewrite F in C1 by congruence. discriminate.
Qed.
Lemma let_more s w h w' : w' <> w -> has_ref s w' h = true -> k_seen (let_go s w h) = k_seen s.
Proof.
  intros W E. unfold let_go. destruct (has_ref s w h); [|reflexivity]. match goal with |- context [if ?c then _ else _] => destruct c eqn:C end; [reflexivity|]. exfalso.
  match type of C with ?x = false => assert (x = true) end; [|congruence].
  apply alive_ref. exists w'. unfold has_ref. cbn [k_refs]. rewrite filter_ref. fold (has_ref s w' h). rewrite E. apply who_dec in W.
  replace (who_eqb w w') with false; [reflexivity|]. symmetry. apply who_dec. intros ->. rewrite who_refl in W. discriminate.
Qed.
Lemma let_none s w h : has_ref s w h = false -> let_go s w h = s.
Proof. intros E. unfold let_go. rewrite E. reflexivity. Qed.
Lemma let_seen s w h g : g <> h -> marks g (k_seen (let_go s w h)) = marks g (k_seen s).
Proof.
  intros H. unfold let_go. destruct (has_ref s w h); [|reflexivity]. match goal with |- context [if ?c then _ else _] => destruct c end; [reflexivity|].
  cbn [k_seen marks filter]. assert (E : Nat.eqb h g = false) by (apply Nat.eqb_neq; congruence). rewrite E. reflexivity.
Qed.
Lemma thr_del_get l t u : thr_get (thr_del l t) u = if Nat.eqb u t then None else thr_get l u.
Proof.
  induction l as [|[a x] l IH]; [destruct (Nat.eqb u t); reflexivity|]. unfold thr_del in *. cbn [filter fst]. destruct (Nat.eqb a t) eqn:E; cbn [negb thr_get].
  - rewrite IH. apply Nat.eqb_eq in E. subst a. destruct (Nat.eqb u t); reflexivity.
  - rewrite IH. destruct (Nat.eqb u a) eqn:F; [|reflexivity]. apply Nat.eqb_eq in F. subst u. rewrite E. reflexivity.
Qed.
Lemma id_del_get l t u : u <> t -> id_get (id_del l t) u = id_get l u.
Proof.
  intros H. induction l as [|[a x] l IH]; [reflexivity|]. unfold id_del in *. cbn [filter fst]. destruct (Nat.eqb a t) eqn:E; cbn [negb id_get].
  - rewrite IH. apply Nat.eqb_eq in E. subst a. apply Nat.eqb_neq in H. rewrite H. reflexivity.
  - rewrite IH. reflexivity.
Qed.

Lemma life_snoc h pre o : life_of h (pre ++ [o]) = life_step h (life_of h pre) o.
Proof. unfold life_of. rewrite fold_left_app. reflexivity. Qed.
Lemma conn_snoc h pre o : is_conn h (pre ++ [o]) = is_conn h pre || match o with KAccept _ g _ => Nat.eqb g h | _ => false end.
Proof. unfold is_conn. rewrite existsb_app. cbn [existsb]. rewrite orb_false_r. reflexivity. Qed.

(** The references to one handler. *)
Definition refs_ok (c : bool) (l : life) (f : who -> bool) : Prop :=
  f HLocal = false /\ f HSet = (c && match l with LWait _ | LServe _ => true | _ => false end) /\
  (forall u, f (HThread u) = match l with LServe t => Nat.eqb u t | _ => false end) /\
  (c = true -> f HOther = false) /\ (l = LNone -> f HOther = false) /\ (c = false -> (exists t, l = LWait t) -> f HOther = true).
Definition marks_ok (c : bool) (l : life) (h : nat) (m : list obs) : Prop :=
  c = true \/ l = LNone -> m = match l with LNone | LWait _ => [] | LServe _ => [BServe h] | LOver => [BClose h; BServe h] | LFail => [BClose h] end.
Record kinv (pre : list cop) (s : cst) : Prop := mkk {
  k_new : forall t c h, thr_get (k_thr s) t = Some (TNew c h) -> life_of h pre = LWait t /\ c = is_conn h pre;
  k_run : forall t c h, thr_get (k_thr s) t = Some (TRun c h) -> life_of h pre = LServe t /\ c = is_conn h pre;
  k_wait : forall h t, life_of h pre = LWait t -> k_co s h = Some t /\ thr_get (k_thr s) t = Some (TNew (is_conn h pre) h);
  k_serve : forall h t, life_of h pre = LServe t -> thr_get (k_thr s) t = Some (TRun (is_conn h pre) h);
  k_ref : forall h, refs_ok (is_conn h pre) (life_of h pre) (fun w => has_ref s w h);
  k_marks : forall h, marks_ok (is_conn h pre) (life_of h pre) h (marks h (k_seen s)) }.
Lemma kinv0 : kinv [] c0.
Proof.
  split; try discriminate; intros h.
  - repeat split; cbn; intros; try reflexivity; try discriminate. destruct H0. discriminate.
  - intros _. reflexivity.
Qed.
Lemma refs_ext c l f g : (forall w, f w = g w) -> refs_ok c l f -> refs_ok c l g.
Proof. intros E (A & B & C & D & F & G). unfold refs_ok. rewrite <- !E. repeat split; auto. intros u. rewrite <- E. apply C. Qed.

(** An event about one handler [h]; the others are left alone. *)
Lemma kinv_one pre s o s' h : kinv pre s ->
  (forall g, g <> h -> life_step g (life_of g pre) o = life_of g pre) -> (forall g, g <> h -> match o with KAccept _ x _ => Nat.eqb x g | _ => false end = false) ->
  (forall g, g <> h -> k_co s' g = k_co s g) -> (forall g w, g <> h -> has_ref s' w g = has_ref s w g) -> (forall g, g <> h -> marks g (k_seen s') = marks g (k_seen s)) ->
  (forall t, (forall c, thr_get (k_thr s) t <> Some (TNew c h)) -> (forall c, thr_get (k_thr s) t <> Some (TRun c h)) -> thr_get (k_thr s) t <> None -> thr_get (k_thr s') t = thr_get (k_thr s) t) ->
  (forall t x, thr_get (k_thr s') t = Some x -> thr_get (k_thr s) t = Some x \/ x = TNew (is_conn h (pre ++ [o])) h \/ x = TRun (is_conn h (pre ++ [o])) h) ->
  let l' := life_step h (life_of h pre) o in let c' := is_conn h (pre ++ [o]) in
  (forall t c, thr_get (k_thr s') t = Some (TNew c h) -> l' = LWait t) -> (forall t c, thr_get (k_thr s') t = Some (TRun c h) -> l' = LServe t) ->
  (forall t, l' = LWait t -> k_co s' h = Some t /\ thr_get (k_thr s') t = Some (TNew c' h)) -> (forall t, l' = LServe t -> thr_get (k_thr s') t = Some (TRun c' h)) ->
  refs_ok c' l' (fun w => has_ref s' w h) -> marks_ok c' l' h (marks h (k_seen s')) ->
  kinv (pre ++ [o]) s'.
Proof.
  intros [A1 A2 A3 A4 A5 A6] L K C R M T1 T2 l' c' N1 N2 N3 N4 N5 N6.
  assert (L' : forall g, g <> h -> life_of g (pre ++ [o]) = life_of g pre) by (intros g H; rewrite life_snoc; auto).
  assert (Lh : life_of h (pre ++ [o]) = l') by apply life_snoc.
  assert (K' : forall g, g <> h -> is_conn g (pre ++ [o]) = is_conn g pre) by (intros g H; rewrite conn_snoc, K by exact H; apply orb_false_r).
  assert (NT : forall t g x, g <> h -> thr_get (k_thr s) t = Some x -> x = TNew (is_conn g pre) g \/ x = TRun (is_conn g pre) g -> thr_get (k_thr s') t = Some x).
  { intros t g x Hg Hx Hc. rewrite T1; [exact Hx| | |rewrite Hx; discriminate].
    - intros c E. rewrite E in Hx. injection Hx as <-. destruct Hc as [[= _ E2]|E2]; congruence.
    - intros c E. rewrite E in Hx. injection Hx as <-. destruct Hc as [E2|[= _ E2]]; congruence. }
  split.
  - intros t c g H. destruct (Nat.eq_dec g h) as [->|Hg].
    + rewrite Lh. split; [eapply N1; exact H|]. pose proof (N1 _ _ H) as E. destruct (N3 _ E) as (_ & E2). unfold c' in E2. congruence.
    + rewrite L', K' by exact Hg. destruct (T2 _ _ H) as [E|[E|E]]; [apply (A1 _ _ _ E)|injection E as _ E; congruence|discriminate].
  - intros t c g H. destruct (Nat.eq_dec g h) as [->|Hg].
    + rewrite Lh. split; [eapply N2; exact H|]. pose proof (N2 _ _ H) as E. pose proof (N4 _ E) as E2. unfold c' in E2. congruence.
    + rewrite L', K' by exact Hg. destruct (T2 _ _ H) as [E|[E|E]]; [apply (A2 _ _ _ E)|discriminate|injection E as _ E; congruence].
  - intros g t H. destruct (Nat.eq_dec g h) as [->|Hg]; [rewrite Lh in H; auto|]. rewrite L' in H by exact Hg. rewrite K', C by exact Hg. destruct (A3 _ _ H) as (E1 & E2). split; [exact E1|]. eapply NT; eauto.
  - intros g t H. destruct (Nat.eq_dec g h) as [->|Hg]; [rewrite Lh in H; auto|]. rewrite L' in H by exact Hg. rewrite K' by exact Hg. eapply NT; eauto.
  - intros g. destruct (Nat.eq_dec g h) as [->|Hg]; [rewrite Lh; exact N5|]. rewrite L', K' by exact Hg. eapply refs_ext; [|apply A5]. intros w. symmetry. apply R. exact Hg.
  - intros g. destruct (Nat.eq_dec g h) as [->|Hg]; [rewrite Lh; exact N6|]. rewrite L', K', M by exact Hg. apply A6.
Qed.
Lemma life_fresh_conn h pre : life_of h pre = LNone -> is_conn h pre = false.
Proof.
  destruct (is_conn h pre) eqn:E; [|reflexivity]. intros H. exfalso. revert H. unfold is_conn, life_of in *.
  assert (P : forall l o, l <> LNone -> life_step h l o <> LNone).
  { intros l o Hl. destruct o as [t g [] |t g []|g|t|t|t]; cbn [life_step]; try (destruct (Nat.eqb g h); [discriminate|exact Hl]); try exact Hl; destruct l; try exact Hl; destruct (Nat.eqb t t0); congruence. }
  assert (Q : forall os l, l <> LNone -> fold_left (life_step h) os l <> LNone) by (induction os as [|o os IH]; intros l Hl; [exact Hl|cbn [fold_left]; apply IH, P, Hl]).
  generalize LNone at 1. induction pre as [|o pre IH]; [discriminate|]. intros l. cbn [existsb fold_left] in *. apply orb_true_iff in E. destruct E as [E|E]; [|apply IH; exact E].
  destruct o as [t g ok|t g ok|g|t|t|t]; try discriminate. cbn [life_step]. rewrite E. apply Q. destruct ok; discriminate.
Qed.
Lemma kinv_same pre s o s' : kinv pre s -> (forall g, life_step g (life_of g pre) o = life_of g pre) -> match o with KAccept _ _ _ => False | _ => True end ->
  k_co s' = k_co s -> k_thr s' = k_thr s -> (forall g w, has_ref s' w g = has_ref s w g) -> (forall g, marks g (k_seen s') = marks g (k_seen s)) -> kinv (pre ++ [o]) s'.
Proof.
  intros [A1 A2 A3 A4 A5 A6] L K C T R M.
  assert (L' : forall g, life_of g (pre ++ [o]) = life_of g pre) by (intros g; rewrite life_snoc; auto).
  assert (K' : forall g, is_conn g (pre ++ [o]) = is_conn g pre) by (intros g; rewrite conn_snoc; destruct o; try contradiction; apply orb_false_r).
  split; intros; rewrite ?L', ?K', ?C, ?T, ?M in *; auto. eapply refs_ext; [|apply A5]. intros w. symmetry. apply R.
Qed.
Lemma eqb_no a b : a <> b -> Nat.eqb a b = false. Proof. apply Nat.eqb_neq. Qed.
Lemma thr_free pre s t : kinv pre s -> (forall g, life_of g pre <> LWait t /\ life_of g pre <> LServe t) -> thr_get (k_thr s) t = None.
Proof. intros A F. destruct (thr_get (k_thr s) t) as [[c h|c h]|] eqn:E; [| |reflexivity]; [apply (k_new _ _ A) in E|apply (k_run _ _ A) in E]; destruct (F h); destruct E; congruence. Qed.

Lemma kaccept pre s t h ok : kinv pre s -> env1 pre (KAccept t h ok) -> exists s', cstep s (KAccept t h ok) = Ok s' /\ kinv (pre ++ [KAccept t h ok]) s' /\ k_ids s' = k_ids s /\ k_next s' = k_next s.
Proof.
  intros A (Hl & Hf). cbn [cstep]. pose proof (life_fresh_conn _ _ Hl) as Hc. pose proof (thr_free _ _ _ A Hf) as Ht.
  pose proof (k_ref _ _ A h) as R. rewrite Hl, Hc in R. destruct R as (R1 & R2 & R3 & _ & R5 & _). specialize (R5 eq_refl). cbn [andb] in R2.
  pose proof (k_marks _ _ A h (or_intror Hl)) as M. rewrite Hl in M.
  assert (C' : is_conn h (pre ++ [KAccept t h ok]) = true) by (rewrite conn_snoc, Nat.eqb_refl; apply orb_true_r).
  destruct ok; cbn [co_start].
  - set (s1 := hold s HLocal h). set (s2 := mkc _ _ _ _ _ _). set (s3 := hold s2 HSet h). eexists. split; [reflexivity|].
    destruct (hold_rest s HLocal h) as (X1 & X2 & X3 & X4 & X5). fold s1 in X1, X2, X3, X4, X5.
    destruct (hold_rest s2 HSet h) as (Y1 & Y2 & Y3 & Y4 & Y5). fold s3 in Y1, Y2, Y3, Y4, Y5.
    destruct (let_rest s3 HLocal h) as (Z1 & Z2 & Z3 & Z4).
    assert (RR : forall w g, has_ref (let_go s3 HLocal h) w g = (has_ref s w g || (who_eqb HLocal w && Nat.eqb h g) || (who_eqb HSet w && Nat.eqb h g)) && negb (who_eqb HLocal w && Nat.eqb h g)).
    { intros w g. rewrite let_ref. unfold s3. rewrite hold_ref. change (has_ref s2 w g) with (has_ref s1 w g). unfold s1. rewrite hold_ref. reflexivity. }
    assert (S : k_seen (let_go s3 HLocal h) = k_seen s).
    { rewrite (let_more _ _ _ HSet); [rewrite Y5; exact X5|discriminate|]. unfold s3. rewrite hold_ref. cbn [who_eqb]. rewrite Nat.eqb_refl. apply orb_true_r. }
    split; [|split; [rewrite Z3, Y3; exact X3|rewrite Z4, Y4; exact X4]].
    assert (TT : forall u, thr_get (k_thr (let_go s3 HLocal h)) u = if Nat.eqb u t then Some (TNew true h) else thr_get (k_thr s) u).
    { intros u. rewrite Z2, Y2. cbn [k_thr s2 thr_get]. rewrite X2. reflexivity. }
    apply kinv_one with (s := s) (h := h).
    + exact A.
    + intros g Hg. cbn [life_step]. rewrite eqb_no by congruence. reflexivity.
    + intros g Hg. apply eqb_no. congruence.
    + intros g Hg. rewrite Z1, Y1. cbn [k_co s2]. rewrite eqb_no by congruence. rewrite X1. reflexivity.
    + intros g w Hg. rewrite RR. rewrite (eqb_no h g) by congruence. rewrite !andb_false_r, !orb_false_r. apply andb_true_r.
    + intros g Hg. rewrite S. reflexivity.
    + intros u _ _ Hu. rewrite TT. destruct (Nat.eqb u t) eqn:E; [apply Nat.eqb_eq in E; subst; congruence|reflexivity].
    + intros u x. rewrite TT, C'. destruct (Nat.eqb u t); [intros [= <-]; auto|auto].
    + intros u c. rewrite TT. cbn [life_step]. rewrite Nat.eqb_refl. destruct (Nat.eqb u t) eqn:E; [apply Nat.eqb_eq in E; congruence|]. intros F. apply (k_new _ _ A) in F. destruct F. congruence.
    + intros u c. rewrite TT. destruct (Nat.eqb u t) eqn:E; [discriminate|]. intros F. apply (k_run _ _ A) in F. destruct F. congruence.
    + intros u. cbn [life_step]. rewrite Nat.eqb_refl. intros [= <-]. rewrite TT, C', Z1, Y1. cbn [k_co s2]. rewrite !Nat.eqb_refl. auto.
    + intros u. cbn [life_step]. rewrite Nat.eqb_refl. discriminate.
    + cbn [life_step]. rewrite Nat.eqb_refl, C'. unfold refs_ok. rewrite !RR. cbn [who_eqb]. rewrite Nat.eqb_refl, R1, R2, R5. repeat split; intros; rewrite ?RR; cbn [who_eqb]; try reflexivity; try discriminate.
      rewrite R3. reflexivity.
    + cbn [life_step]. rewrite Nat.eqb_refl. intros _. rewrite S. exact M.
  - eexists. split; [reflexivity|]. set (s1 := hold s HLocal h).
    destruct (hold_rest s HLocal h) as (X1 & X2 & X3 & X4 & X5). fold s1 in X1, X2, X3, X4, X5.
    destruct (let_rest s1 HLocal h) as (Z1 & Z2 & Z3 & Z4).
    assert (RR : forall w g, has_ref (let_go s1 HLocal h) w g = (has_ref s w g || (who_eqb HLocal w && Nat.eqb h g)) && negb (who_eqb HLocal w && Nat.eqb h g)).
    { intros w g. rewrite let_ref. unfold s1. rewrite hold_ref. reflexivity. }
    assert (S : k_seen (let_go s1 HLocal h) = BClose h :: k_seen s).
    { rewrite let_last; [rewrite X5; reflexivity| |].
      - unfold s1. rewrite hold_ref. cbn [who_eqb]. rewrite Nat.eqb_refl. apply orb_true_r.
      - intros w Hw. unfold s1. rewrite hold_ref. replace (who_eqb HLocal w) with false by (symmetry; apply who_dec; congruence). rewrite orb_false_r.
        destruct w; auto; congruence. }
    split; [|split; [rewrite Z3; exact X3|rewrite Z4; exact X4]].
    apply kinv_one with (s := s) (h := h).
    + exact A.
    + intros g Hg. cbn [life_step]. rewrite eqb_no by congruence. reflexivity.
    + intros g Hg. apply eqb_no. congruence.
    + intros g Hg. rewrite Z1, X1. reflexivity.
    + intros g w Hg. rewrite RR. rewrite (eqb_no h g) by congruence. rewrite !andb_false_r, !orb_false_r. apply andb_true_r.
    + intros g Hg. unfold s1. rewrite let_seen by exact Hg. fold s1. rewrite X5. reflexivity.
    + intros u _ _ Hu. rewrite Z2, X2. reflexivity.
    + intros u x. rewrite Z2, X2. auto.
    + intros u c. rewrite Z2, X2. intros F. apply (k_new _ _ A) in F. destruct F. congruence.
    + intros u c. rewrite Z2, X2. intros F. apply (k_run _ _ A) in F. destruct F. congruence.
    + intros u. cbn [life_step]. rewrite Nat.eqb_refl. discriminate.
    + intros u. cbn [life_step]. rewrite Nat.eqb_refl. discriminate.
    + cbn [life_step]. rewrite Nat.eqb_refl, C'. unfold refs_ok. rewrite !RR. cbn [who_eqb]. rewrite Nat.eqb_refl, R1, R2, R5. repeat split; intros; rewrite ?RR; cbn [who_eqb]; try reflexivity; try discriminate.
      rewrite R3. reflexivity.
    + cbn [life_step]. rewrite Nat.eqb_refl. intros _. rewrite S. cbn [marks filter]. rewrite Nat.eqb_refl. fold (marks h (k_seen s)). rewrite M. reflexivity.
Qed.
Lemma kother pre s t h ok : kinv pre s -> env1 pre (KOther t h ok) -> exists s', cstep s (KOther t h ok) = Ok s' /\ kinv (pre ++ [KOther t h ok]) s' /\ k_ids s' = k_ids s /\ k_next s' = k_next s /\ k_seen s' = k_seen s.
Proof.
  intros A (Hl & Hf). cbn [cstep]. pose proof (life_fresh_conn _ _ Hl) as Hc. pose proof (thr_free _ _ _ A Hf) as Ht.
  pose proof (k_ref _ _ A h) as R. rewrite Hl, Hc in R. destruct R as (R1 & R2 & R3 & _ & R5 & _). specialize (R5 eq_refl). cbn [andb] in R2.
  assert (C' : is_conn h (pre ++ [KOther t h ok]) = false) by (rewrite conn_snoc, Hc; reflexivity).
  set (s1 := hold s HOther h).
  destruct (hold_rest s HOther h) as (X1 & X2 & X3 & X4 & X5). fold s1 in X1, X2, X3, X4, X5.
  assert (RR : forall w g, has_ref s1 w g = (has_ref s w g || (who_eqb HOther w && Nat.eqb h g))) by (intros w g; apply hold_ref).
  destruct ok; cbn [co_start fst].
  - eexists. split; [reflexivity|]. cbn [k_ids k_next k_seen]. split; [|auto]. set (s2 := mkc _ _ _ _ _ _).
    assert (TT : forall u, thr_get (k_thr s2) u = if Nat.eqb u t then Some (TNew false h) else thr_get (k_thr s) u) by (intros u; cbn [k_thr s2 thr_get]; rewrite X2; reflexivity).
    apply kinv_one with (s := s) (h := h).
    + exact A.
    + intros g Hg. cbn [life_step]. rewrite eqb_no by congruence. reflexivity.
    + intros g Hg. reflexivity.
    + intros g Hg. cbn [k_co s2]. rewrite eqb_no by congruence. rewrite X1. reflexivity.
    + intros g w Hg. change (has_ref s2 w g) with (has_ref s1 w g). rewrite RR. rewrite (eqb_no h g) by congruence. rewrite !andb_false_r, !orb_false_r. reflexivity.
    + intros g Hg. cbn [k_seen s2]. rewrite X5. reflexivity.
    + intros u _ _ Hu. rewrite TT. destruct (Nat.eqb u t) eqn:E; [apply Nat.eqb_eq in E; subst; congruence|reflexivity].
    + intros u x. rewrite TT, C'. destruct (Nat.eqb u t); [intros [= <-]; auto|auto].
    + intros u c. rewrite TT. cbn [life_step]. rewrite Nat.eqb_refl. destruct (Nat.eqb u t) eqn:E; [apply Nat.eqb_eq in E; congruence|]. intros F. apply (k_new _ _ A) in F. destruct F. congruence.
    + intros u c. rewrite TT. destruct (Nat.eqb u t) eqn:E; [discriminate|]. intros F. apply (k_run _ _ A) in F. destruct F. congruence.
    + intros u. cbn [life_step]. rewrite Nat.eqb_refl. intros [= <-]. rewrite TT, C'. cbn [k_co s2]. rewrite !Nat.eqb_refl. auto.
    + intros u. cbn [life_step]. rewrite Nat.eqb_refl. discriminate.
    + cbn [life_step]. rewrite Nat.eqb_refl, C'. apply refs_ext with (f := fun w => has_ref s1 w h); [reflexivity|]. unfold refs_ok. rewrite !RR. cbn [who_eqb]. rewrite Nat.eqb_refl, R1, R2, R5. repeat split; intros; rewrite ?RR; cbn [who_eqb]; try reflexivity; try discriminate.
      rewrite R3. reflexivity.
    + cbn [life_step]. rewrite Nat.eqb_refl, C'. intros [H|H]; discriminate.
  - eexists. split; [reflexivity|]. split; [|auto].
    apply kinv_one with (s := s) (h := h).
    + exact A.
    + intros g Hg. cbn [life_step]. rewrite eqb_no by congruence. reflexivity.
    + intros g Hg. reflexivity.
    + intros g Hg. rewrite X1. reflexivity.
    + intros g w Hg. rewrite RR. rewrite (eqb_no h g) by congruence. rewrite !andb_false_r, !orb_false_r. reflexivity.
    + intros g Hg. rewrite X5. reflexivity.
    + intros u _ _ Hu. rewrite X2. reflexivity.
    + intros u x. rewrite X2. auto.
    + intros u c. rewrite X2. intros F. apply (k_new _ _ A) in F. destruct F. congruence.
    + intros u c. rewrite X2. intros F. apply (k_run _ _ A) in F. destruct F. congruence.
    + intros u. cbn [life_step]. rewrite Nat.eqb_refl. discriminate.
    + intros u. cbn [life_step]. rewrite Nat.eqb_refl. discriminate.
    + cbn [life_step]. rewrite Nat.eqb_refl, C'. unfold refs_ok. rewrite !RR. cbn [who_eqb]. rewrite Nat.eqb_refl, R1, R2, R5. repeat split; intros; rewrite ?RR; cbn [who_eqb]; try reflexivity; try discriminate.
      rewrite R3. reflexivity.
    + cbn [life_step]. rewrite Nat.eqb_refl, C'. intros [H|H]; discriminate.
Qed.
Lemma kforget pre s h : kinv pre s -> env1 pre (KForget h) -> exists s', cstep s (KForget h) = Ok s' /\ kinv (pre ++ [KForget h]) s' /\ k_ids s' = k_ids s /\ k_next s' = k_next s.
Proof.
  intros A He. cbn [cstep env1] in *. eexists. split; [reflexivity|]. destruct (let_rest s HOther h) as (Z1 & Z2 & Z3 & Z4). split; [|auto].
  pose proof (k_ref _ _ A h) as R. destruct R as (R1 & R2 & R3 & R4 & R5 & R6). pose proof (k_marks _ _ A h) as M.
  assert (C' : is_conn h (pre ++ [KForget h]) = is_conn h pre) by (rewrite conn_snoc; apply orb_false_r).
  apply kinv_one with (s := s) (h := h); rewrite ?C'; cbn [life_step].
  + exact A.
  + intros g Hg. reflexivity.
  + reflexivity.
  + intros g Hg. rewrite Z1. reflexivity.
  + intros g w Hg. rewrite let_ref. rewrite (eqb_no h g) by congruence. rewrite andb_false_r. apply andb_true_r.
  + intros g Hg. apply let_seen. exact Hg.
  + intros u _ _ Hu. rewrite Z2. reflexivity.
  + intros u x. rewrite Z2. auto.
  + intros u c. rewrite Z2. intros F. apply (k_new _ _ A) in F. destruct F. congruence.
  + intros u c. rewrite Z2. intros F. apply (k_run _ _ A) in F. destruct F. congruence.
  + intros u E. destruct (He u E).
  + intros u E. rewrite Z2. apply (k_serve _ _ A _ _ E).
  + unfold refs_ok. rewrite !let_ref. cbn [who_eqb]. rewrite Nat.eqb_refl. cbn [andb negb]. rewrite !andb_true_r, !andb_false_r.
    repeat split; auto.
    * intros u. rewrite let_ref. cbn [who_eqb andb negb]. rewrite andb_true_r. apply R3.
    * intros _ (t & E). destruct (He t E).
  + intros Q. rewrite <- M by exact Q. rewrite let_none; [reflexivity|]. destruct Q as [Q|Q]; [exact (R4 Q)|exact (R5 Q)].
Qed.
Lemma kbegin pre s t : kinv pre s -> k_next s < 2147483647 -> exists s', cstep s (KBegin t) = Ok s' /\ kinv (pre ++ [KBegin t]) s' /\
  (k_ids s' = k_ids s /\ k_next s' = k_next s /\ k_seen s' = k_seen s /\ k_thr s' = k_thr s \/
   exists h c, life_of h pre = LWait t /\ k_thr s' = (t, TRun c h) :: thr_del (k_thr s) t /\ k_ids s' = (t, k_next s) :: id_del (k_ids s) t /\ k_next s' = k_next s + 1 /\ k_seen s' = BServe h :: k_seen s).
Proof.
  intros A Hn. cbn [cstep]. unfold co_begin. destruct (thr_get (k_thr s) t) as [[c h|c h]|] eqn:E.
  - destruct (k_new _ _ A _ _ _ E) as (L & ->). destruct (k_wait _ _ A _ _ L) as (Co & _).
    pose proof (k_ref _ _ A h) as R. rewrite L in R. destruct R as (R1 & R2 & R3 & R4 & R5 & R6). pose proof (k_marks _ _ A h) as M. rewrite L in M.
    assert (Al : alive s h = true).
    { apply alive_ref. destruct (is_conn h pre); [exists HSet; exact R2|exists HOther; apply R6; eauto]. }
    rewrite Al, Co, Nat.eqb_refl. cbn [andb]. cbv zeta. set (s1 := hold s (HThread t) h).
    destruct (hold_rest s (HThread t) h) as (X1 & X2 & X3 & X4 & X5). fold s1 in X1, X2, X3, X4, X5. rewrite X4.
    destruct (Z.eqb_spec (k_next s) 2147483647); [lia|]. eexists. split; [reflexivity|]. cbn [k_ids k_next k_seen k_thr]. rewrite X1, X2, X3, X5.
    split; [|right; exists h, (is_conn h pre); auto]. set (s2 := mkc _ _ _ _ _ _).
    assert (RR : forall w g, has_ref s2 w g = (has_ref s w g || (who_eqb (HThread t) w && Nat.eqb h g))) by (intros w g; apply (hold_ref s (HThread t) h w g)).
    assert (C' : is_conn h (pre ++ [KBegin t]) = is_conn h pre) by (rewrite conn_snoc; apply orb_false_r).
    assert (TT : forall u, thr_get (k_thr s2) u = if Nat.eqb u t then Some (TRun (is_conn h pre) h) else thr_get (k_thr s) u).
    { intros u. cbn [k_thr s2 thr_get]. rewrite thr_del_get. destruct (Nat.eqb u t); reflexivity. }
    apply kinv_one with (s := s) (h := h); rewrite ?C'; cbn [life_step]; rewrite ?L, ?Nat.eqb_refl.
    + exact A.
    + intros g Hg. destruct (life_of g pre) as [|u| | |] eqn:Lg; try reflexivity. destruct (Nat.eqb t u) eqn:Eu; [|reflexivity]. apply Nat.eqb_eq in Eu. subst u.
      destruct (k_wait _ _ A _ _ Lg) as (_ & Eg). rewrite E in Eg. injection Eg as _ Eg. congruence.
    + reflexivity.
    + reflexivity.
    + intros g w Hg. rewrite RR. rewrite (eqb_no h g) by congruence. rewrite andb_false_r. apply orb_false_r.
    + intros g Hg. cbn [k_seen s2 marks filter]. rewrite (eqb_no h g) by congruence. reflexivity.
    + intros u Hu _ _. rewrite TT. destruct (Nat.eqb u t) eqn:Eu; [|reflexivity]. apply Nat.eqb_eq in Eu. subst u. destruct (Hu _ E).
    + intros u x. rewrite TT. destruct (Nat.eqb u t); [intros [= <-]; auto|auto].
    + intros u c. rewrite TT. destruct (Nat.eqb u t) eqn:Eu; [discriminate|]. intros F. apply (k_new _ _ A) in F. destruct F as (F & _). rewrite L in F. injection F as <-. rewrite Nat.eqb_refl in Eu. discriminate.
    + intros u c. rewrite TT. destruct (Nat.eqb u t) eqn:Eu; [apply Nat.eqb_eq in Eu; subst u; reflexivity|]. intros F. apply (k_run _ _ A) in F. destruct F. congruence.
    + discriminate.
    + intros u [= <-]. rewrite TT, Nat.eqb_refl. reflexivity.
    + unfold refs_ok. rewrite !RR. cbn [who_eqb andb]. rewrite !orb_false_r. repeat split; auto; try discriminate.
      * intros u. rewrite RR, R3. cbn [who_eqb orb]. rewrite Nat.eqb_refl, andb_true_r. apply Nat.eqb_sym.
      * intros _ (u & Q). discriminate.
    + intros [Q|Q]; [|discriminate]. cbn [k_seen s2 marks filter]. rewrite Nat.eqb_refl. fold (marks h (k_seen s)). rewrite M by (left; exact Q). reflexivity.
  - eexists. split; [reflexivity|]. split; [|left; auto]. apply kinv_same with (s := s); auto. intros g. cbn [life_step].
    destruct (life_of g pre) as [|u| | |] eqn:Lg; try reflexivity. destruct (Nat.eqb t u) eqn:Eu; [|reflexivity]. apply Nat.eqb_eq in Eu. subst u.
    destruct (k_wait _ _ A _ _ Lg) as (_ & Eg). congruence.
  - eexists. split; [reflexivity|]. split; [|left; auto]. apply kinv_same with (s := s); auto. intros g. cbn [life_step].
    destruct (life_of g pre) as [|u| | |] eqn:Lg; try reflexivity. destruct (Nat.eqb t u) eqn:Eu; [|reflexivity]. apply Nat.eqb_eq in Eu. subst u.
    destruct (k_wait _ _ A _ _ Lg) as (_ & Eg). congruence.
Qed.
Lemma klog pre s t : kinv pre s -> exists s', cstep s (KLog t) = Ok s' /\ kinv (pre ++ [KLog t]) s' /\ k_ids s' = k_ids s /\ k_next s' = k_next s /\ k_thr s' = k_thr s /\
  (k_seen s' = k_seen s \/ exists c h, thr_get (k_thr s) t = Some (TRun c h) /\ k_seen s' = BLog h (id_get (k_ids s) t) :: k_seen s).
Proof.
  intros A. cbn [cstep]. eexists. split; [reflexivity|]. unfold co_log. destruct (thr_get (k_thr s) t) as [[c h|c h]|] eqn:E; cbn [k_ids k_next k_seen k_thr];
    (split; [apply kinv_same with (s := s); auto|repeat split; eauto]).
Qed.
Lemma kfinish pre s t : kinv pre s -> exists s', cstep s (KFinish t) = Ok s' /\ kinv (pre ++ [KFinish t]) s' /\ k_next s' = k_next s /\
  (forall u, u <> t -> id_get (k_ids s') u = id_get (k_ids s) u) /\ (forall u c h, thr_get (k_thr s') u = Some (TRun c h) -> u <> t /\ thr_get (k_thr s) u = Some (TRun c h)) /\
  (forall h i, In (BLog h i) (k_seen s') -> In (BLog h i) (k_seen s)).
Proof.
  intros A. cbn [cstep]. eexists. split; [reflexivity|].
  assert (N : forall x, x = thr_get (k_thr s) t -> (forall c h, x <> Some (TRun c h)) -> co_finish s t = s /\ kinv (pre ++ [KFinish t]) s).
  { intros x -> Hx. split; [unfold co_finish; destruct (thr_get (k_thr s) t) as [[c h|c h]|]; try reflexivity; destruct (Hx c h eq_refl)|].
    apply kinv_same with (s := s); auto. intros g. cbn [life_step]. destruct (life_of g pre) as [|u|u| |] eqn:Lg; try reflexivity. destruct (Nat.eqb t u) eqn:Eu; [|reflexivity]. apply Nat.eqb_eq in Eu. subst u.
    destruct (Hx _ _ (k_serve _ _ A _ _ Lg)). }
  destruct (thr_get (k_thr s) t) as [[c h|c h]|] eqn:E;
    try (destruct (N _ eq_refl ltac:(discriminate)) as (-> & K); split; [exact K|]; repeat split; auto; intros ->; congruence).
  clear N. unfold co_finish. rewrite E. destruct (k_run _ _ A _ _ _ E) as (L & ->).
  pose proof (k_ref _ _ A h) as R. rewrite L in R. destruct R as (R1 & R2 & R3 & R4 & R5 & R6). pose proof (k_marks _ _ A h) as M. rewrite L in M.
  cbv zeta. set (s1 := if is_conn h pre then let_go s HSet h else s). set (s2 := mkc _ _ _ _ _ _).
  destruct (let_rest s2 (HThread t) h) as (Z1 & Z2 & Z3 & Z4).
  assert (X : k_co s1 = k_co s /\ k_thr s1 = k_thr s /\ k_ids s1 = k_ids s /\ k_next s1 = k_next s /\ k_seen s1 = k_seen s).
  { unfold s1. destruct (is_conn h pre); [|auto]. destruct (let_rest s HSet h) as (Q1 & Q2 & Q3 & Q4). repeat split; auto. apply let_more with (w' := HThread t); [discriminate|]. rewrite R3. apply Nat.eqb_refl. }
  destruct X as (X1 & X2 & X3 & X4 & X5).
  assert (RR1 : forall w g, has_ref s2 w g = has_ref s w g && negb (is_conn h pre && who_eqb HSet w && Nat.eqb h g)).
  { intros w g. change (has_ref s2 w g) with (has_ref s1 w g). unfold s1. destruct (is_conn h pre); cbn [andb negb]; [apply let_ref|rewrite andb_true_r; reflexivity]. }
  assert (RR : forall w g, has_ref (let_go s2 (HThread t) h) w g = has_ref s w g && negb (is_conn h pre && who_eqb HSet w && Nat.eqb h g) && negb (who_eqb (HThread t) w && Nat.eqb h g)).
  { intros w g. rewrite let_ref, RR1. reflexivity. }
  assert (TT : forall u, thr_get (k_thr (let_go s2 (HThread t) h)) u = if Nat.eqb u t then None else thr_get (k_thr s) u) by (intros u; rewrite Z2; cbn [k_thr s2]; rewrite thr_del_get, X2; reflexivity).
  assert (C' : is_conn h (pre ++ [KFinish t]) = is_conn h pre) by (rewrite conn_snoc; apply orb_false_r).
  split.
  - apply kinv_one with (s := s) (h := h); rewrite ?C'; cbn [life_step]; rewrite ?L, ?Nat.eqb_refl.
    + exact A.
    + intros g Hg. destruct (life_of g pre) as [|u|u| |] eqn:Lg; try reflexivity. destruct (Nat.eqb t u) eqn:Eu; [|reflexivity]. apply Nat.eqb_eq in Eu. subst u.
      pose proof (k_serve _ _ A _ _ Lg) as Eg. rewrite E in Eg. injection Eg as _ Eg. congruence.
    + reflexivity.
    + intros g Hg. rewrite Z1. cbn [k_co s2]. rewrite X1. reflexivity.
    + intros g w Hg. rewrite RR. rewrite (eqb_no h g) by congruence. rewrite !andb_false_r. cbn [negb]. rewrite !andb_true_r. reflexivity.
    + intros g Hg. rewrite let_seen by exact Hg. cbn [k_seen s2]. rewrite X5. reflexivity.
    + intros u _ Hu _. rewrite TT. destruct (Nat.eqb u t) eqn:Eu; [|reflexivity]. apply Nat.eqb_eq in Eu. subst u. destruct (Hu _ E).
    + intros u x. rewrite TT. destruct (Nat.eqb u t); [discriminate|auto].
    + intros u c. rewrite TT. destruct (Nat.eqb u t) eqn:Eu; [discriminate|]. intros F. apply (k_new _ _ A) in F. destruct F. congruence.
    + intros u c. rewrite TT. destruct (Nat.eqb u t) eqn:Eu; [discriminate|]. intros F. apply (k_run _ _ A) in F. destruct F as (F & _). rewrite L in F. injection F as <-. rewrite Nat.eqb_refl in Eu. discriminate.
    + discriminate.
    + discriminate.
    + unfold refs_ok. rewrite !RR. cbn [who_eqb andb]. rewrite !andb_false_r. cbn [andb negb]. rewrite !andb_true_r. repeat split; auto; try discriminate.
      * rewrite R2, Nat.eqb_refl, andb_true_r. destruct (is_conn h pre); reflexivity.
      * intros u. rewrite RR, R3. cbn [who_eqb]. rewrite Nat.eqb_refl, !andb_true_r, andb_false_r. cbn [negb andb]. rewrite andb_true_r. rewrite (Nat.eqb_sym u t). destruct (Nat.eqb t u); reflexivity.
      * intros _ (u & Q). discriminate.
    + intros [Q|Q]; [|discriminate]. rewrite let_last.
      * cbn [k_seen s2]. rewrite X5. cbn [marks filter]. rewrite Nat.eqb_refl. fold (marks h (k_seen s)). rewrite M by (left; exact Q). reflexivity.
      * rewrite RR1, R3. cbn [who_eqb]. rewrite Nat.eqb_refl, andb_false_r. reflexivity.
      * intros w Hw. rewrite RR1. rewrite Q. destruct w as [| |u|]; cbn [who_eqb andb negb]; rewrite ?Nat.eqb_refl, ?andb_true_r, ?andb_false_r; auto.
        rewrite R3. apply eqb_no. congruence.
  - split; [rewrite Z4; exact X4|]. split; [|split].
    + intros u Hu. rewrite Z3. cbn [k_ids s2]. rewrite id_del_get by exact Hu. rewrite X3. reflexivity.
    + intros u c g. rewrite TT. destruct (Nat.eqb u t) eqn:Eu; [discriminate|]. apply Nat.eqb_neq in Eu. auto.
    + intros g i. unfold let_go. destruct (has_ref s2 (HThread t) h); [|cbn [k_seen s2]; rewrite X5; auto].
      match goal with |- context [if ?c then _ else _] => destruct c end; cbn [k_seen s2]; rewrite X5; [auto|]. intros [Q|Q]; [discriminate|exact Q].
Qed.

(** Who has which context id. *)
Record iinv (pre : list cop) (s : cst) (f : nat -> option Z) : Prop := mki {
  i_log : forall h i, In (BLog h i) (k_seen s) -> f h = Some i;
  i_run : forall t c h, thr_get (k_thr s) t = Some (TRun c h) -> f h = Some (id_get (k_ids s) t);
  i_range : forall h i, f h = Some i -> 0 <= i < k_next s;
  i_inj : forall h g i, f h = Some i -> f g = Some i -> h = g;
  i_life : forall h t, life_of h pre = LNone \/ life_of h pre = LWait t -> f h = None }.
Lemma begins_snoc pre o : begins (pre ++ [o]) = begins pre + match o with KBegin _ => 1 | _ => 0 end.
Proof. unfold begins. rewrite filter_app, zlen_app. destruct o; reflexivity. Qed.
Lemma accept_logs s t h ok s' : cstep s (KAccept t h ok) = Ok s' -> forall g i, In (BLog g i) (k_seen s') -> In (BLog g i) (k_seen s).
Proof.
  cbn [cstep]. intros E g i. assert (Q : forall s0 w x, In (BLog g i) (k_seen (let_go s0 w x)) -> In (BLog g i) (k_seen s0)).
  { intros s0 w x. unfold let_go. destruct (has_ref s0 w x); [|auto]. match goal with |- context [if ?c then _ else _] => destruct c end; cbn [k_seen]; [auto|]. intros [H|H]; [discriminate|exact H]. }
  destruct ok; cbn [co_start] in E; injection E as <-; intros H; apply Q in H.
  - destruct (hold_rest (mkc (k_refs (hold s HLocal h)) (fun x => if Nat.eqb x h then Some t else k_co (hold s HLocal h) x) ((t, TNew true h) :: k_thr (hold s HLocal h)) (k_ids (hold s HLocal h)) (k_next (hold s HLocal h)) (k_seen (hold s HLocal h))) HSet h) as (_ & _ & _ & _ & Y).
    rewrite Y in H. cbn [k_seen] in H. destruct (hold_rest s HLocal h) as (_ & _ & _ & _ & Z). rewrite Z in H. exact H.
  - destruct (hold_rest s HLocal h) as (_ & _ & _ & _ & Z). rewrite Z in H. exact H.
Qed.
Lemma forget_logs s h g i : In (BLog g i) (k_seen (let_go s HOther h)) -> In (BLog g i) (k_seen s).
Proof. unfold let_go. destruct (has_ref s HOther h); [|auto]. match goal with |- context [if ?c then _ else _] => destruct c end; cbn [k_seen]; [auto|]. intros [H|H]; [discriminate|exact H]. Qed.

(** Nothing about the ids changes. *)
Lemma iinv_same pre s o s' f : kinv (pre ++ [o]) s' -> kinv pre s -> iinv pre s f -> k_next s' = k_next s -> (forall h i, In (BLog h i) (k_seen s') -> f h = Some i) ->
  (forall t c h, thr_get (k_thr s') t = Some (TRun c h) -> thr_get (k_thr s) t = Some (TRun c h) /\ id_get (k_ids s') t = id_get (k_ids s) t) ->
  (forall h t, life_of h (pre ++ [o]) = LNone \/ life_of h (pre ++ [o]) = LWait t -> exists u, life_of h pre = LNone \/ life_of h pre = LWait u) -> iinv (pre ++ [o]) s' f.
Proof.
  intros K' K [A B C D F] N L T G. split; auto.
  - intros t c h H. destruct (T _ _ _ H) as (T1 & T2). rewrite T2. eapply B. exact T1.
  - rewrite N. exact C.
  - intros h t H. destruct (G _ _ H) as (u & H'). eapply F. exact H'.
Qed.
Lemma life_back pre o h t : env1 pre o -> life_of h (pre ++ [o]) = LNone \/ life_of h (pre ++ [o]) = LWait t -> exists u, life_of h pre = LNone \/ life_of h pre = LWait u.
Proof.
  intros E. rewrite life_snoc. destruct o as [u g ok|u g ok|g|u|u|u]; cbn [life_step env1] in *; try solve [intros [H|H]; (exists t; auto)].
  - destruct (Nat.eqb_spec g h) as [->|]; [destruct E as (-> & _); (exists t; auto)|intros [H|H]; (exists t; auto)].
  - destruct (Nat.eqb_spec g h) as [->|]; [destruct E as (-> & _); (exists t; auto)|intros [H|H]; (exists t; auto)].
  - destruct (life_of h pre); try destruct (Nat.eqb u t0); intros [H|H]; try discriminate; (exists t; auto).
  - destruct (life_of h pre); try destruct (Nat.eqb u t0); intros [H|H]; try discriminate; (exists t; auto).
Qed.
Definition kgood pre s := kinv pre s /\ (exists f, iinv pre s f) /\ 0 <= k_next s <= begins pre.
Lemma kgood0 : kgood [] c0.
Proof. split; [exact kinv0|]. split; [|cbn; lia]. exists (fun _ => None). split; cbn; try discriminate; try contradiction; auto. Qed.
Lemma kgood_step pre s o : kgood pre s -> env1 pre o -> begins (pre ++ [o]) <= 2147483647 -> exists s', cstep s o = Ok s' /\ kgood (pre ++ [o]) s'.
Proof.
  intros (K & (f & I) & N) E B. pose proof (fun h t => life_back pre o h t E) as LB. pose proof I as [I1 I2 I3 I4 I5]. rewrite begins_snoc in B.
  assert (RUN : forall s', k_thr s' = k_thr s -> k_ids s' = k_ids s -> forall t c h, thr_get (k_thr s') t = Some (TRun c h) -> thr_get (k_thr s) t = Some (TRun c h) /\ id_get (k_ids s') t = id_get (k_ids s) t).
  { intros s' -> -> t c h H. auto. }
  destruct o as [t h ok|t h ok|h|t|t|t].
  - destruct (kaccept _ _ _ _ _ K E) as (s' & E1 & K' & E2 & E3). exists s'. split; [exact E1|]. split; [exact K'|]. split; [|rewrite begins_snoc, E3; lia]. exists f.
    apply iinv_same with (s := s); auto.
    + intros g i H. apply I1. exact (accept_logs _ _ _ _ _ E1 _ _ H).
    + intros u c g H. rewrite E2. split; [|reflexivity]. destruct (k_run _ _ K' _ _ _ H) as (L & _). rewrite life_snoc in L. cbn [life_step] in L.
      destruct (Nat.eqb_spec h g) as [->|]; [destruct ok; discriminate|]. rewrite (k_serve _ _ K _ _ L). destruct (k_run _ _ K' _ _ _ H) as (_ & ->). rewrite conn_snoc.
      rewrite eqb_no by assumption. rewrite orb_false_r. reflexivity.
  - destruct (kother _ _ _ _ _ K E) as (s' & E1 & K' & E2 & E3 & E4). exists s'. split; [exact E1|]. split; [exact K'|]. split; [|rewrite begins_snoc, E3; lia]. exists f.
    apply iinv_same with (s := s); auto.
    + rewrite E4. exact I1.
    + intros u c g H. rewrite E2. split; [|reflexivity]. destruct (k_run _ _ K' _ _ _ H) as (L & C). rewrite life_snoc in L. cbn [life_step] in L.
      destruct (Nat.eqb_spec h g) as [->|]; [destruct ok; discriminate|]. rewrite (k_serve _ _ K _ _ L). rewrite C, conn_snoc, orb_false_r. reflexivity.
  - destruct (kforget _ _ _ K E) as (s' & E1 & K' & E2 & E3). exists s'. split; [exact E1|]. split; [exact K'|]. split; [|rewrite begins_snoc, E3; lia]. exists f.
    cbn [cstep] in E1. injection E1 as E1. apply iinv_same with (s := s); auto.
    + intros g i H. apply I1. subst s'. exact (forget_logs _ _ _ _ H).
    + apply RUN; [|exact E2]. subst s'. destruct (let_rest s HOther h) as (_ & Z & _). exact Z.
  - destruct (kbegin pre s t K ltac:(lia)) as (s' & E1 & K' & X). exists s'. split; [exact E1|]. split; [exact K'|].
    destruct X as [(X1 & X2 & X3 & X4)|(h & c & L & X4 & X1 & X2 & X3)].
    + split; [|rewrite begins_snoc, X2; lia]. exists f. apply iinv_same with (s := s); auto. rewrite X3. exact I1.
    + split; [|rewrite begins_snoc, X2; lia]. exists (fun g => if Nat.eqb g h then Some (k_next s) else f g).
      assert (F : f h = None) by (eapply I5; right; exact L). split.
      * intros g i. rewrite X3. intros [H|H]; [discriminate|]. apply I1 in H. destruct (Nat.eqb_spec g h) as [->|]; [congruence|exact H].
      * intros u c' g. rewrite X4, X1. cbn [thr_get id_get]. rewrite thr_del_get. destruct (Nat.eqb u t) eqn:Eu.
        -- intros [= <- <-]. rewrite Nat.eqb_refl. reflexivity.
        -- intros H. pose proof (I2 _ _ _ H) as Q. destruct (Nat.eqb_spec g h) as [->|]; [congruence|]. rewrite id_del_get; [exact Q|]. apply Nat.eqb_neq. exact Eu.
      * intros g i. rewrite X2. destruct (Nat.eqb g h); [intros [= <-]; lia|]. intros H. apply I3 in H. lia.
      * intros g g' i. destruct (Nat.eqb_spec g h) as [->|], (Nat.eqb_spec g' h) as [->|]; auto.
        -- intros [= <-] H. apply I3 in H. lia.
        -- intros H [= <-]. apply I3 in H. lia.
        -- apply I4.
      * intros g u H. destruct (Nat.eqb_spec g h) as [->|].
        -- rewrite life_snoc in H. cbn [life_step] in H. rewrite L, Nat.eqb_refl in H. destruct H; discriminate.
        -- destruct (LB _ _ H) as (v & H'). eapply I5. exact H'.
  - destruct (klog pre s t K) as (s' & E1 & K' & X1 & X2 & X4 & X3). exists s'. split; [exact E1|]. split; [exact K'|]. split; [|rewrite begins_snoc, X2; lia]. exists f.
    apply iinv_same with (s := s); auto. intros g i. destruct X3 as [->|(c & h & X5 & ->)]; [apply I1|]. intros [H|H]; [|apply I1; exact H]. injection H as <- <-. eapply I2. exact X5.
  - destruct (kfinish pre s t K) as (s' & E1 & K' & X2 & X1 & X4 & X3). exists s'. split; [exact E1|]. split; [exact K'|]. split; [|rewrite begins_snoc, X2; lia]. exists f.
    apply iinv_same with (s := s); auto. intros u c g H. destruct (X4 _ _ _ H) as (H1 & H2). split; [exact H2|]. apply X1. exact H1.
Qed.
Lemma begins_app a b : begins (a ++ b) = begins a + begins b.
Proof. unfold begins. rewrite filter_app, zlen_app. reflexivity. Qed.
Lemma begins_pos a : 0 <= begins a. Proof. unfold begins. apply zlen_nonneg. Qed.
Lemma kgood_run os : forall pre s, kgood pre s -> env_from pre os -> begins (pre ++ os) <= 2147483647 -> exists s', crun s os = Ok s' /\ kgood (pre ++ os) s'.
Proof.
  induction os as [|o os IH]; intros pre s G E B; [exists s; rewrite app_nil_r; auto|]. cbn [env_from crun] in *. destruct E as (E1 & E2).
  replace (pre ++ o :: os) with ((pre ++ [o]) ++ os) in * by (rewrite <- app_assoc; reflexivity).
  destruct (kgood_step pre s o G E1) as (s1 & S & G1). { rewrite begins_app in B. pose proof (begins_pos os). lia. }
  rewrite S. cbn [bind]. apply IH; assumption.
Qed.

(** Connections one after the other, each served and over before the next. *)
Fixpoint rounds (n : nat) : list cop :=
  match n with O => [] | S k => rounds k ++ [KAccept 0 k true; KBegin 0; KFinish 0] end.
Lemma env_from_app a : forall pre b, env_from pre a -> env_from (pre ++ a) b -> env_from pre (a ++ b).
Proof.
  induction a as [|o a IH]; intros pre b A B; [rewrite app_nil_r in B; exact B|]. cbn [env_from app] in *. destruct A as (A1 & A2). split; [exact A1|]. apply IH; [exact A2|].
  rewrite <- app_assoc. exact B.
Qed.
Lemma life_app h a b : life_of h (a ++ b) = fold_left (life_step h) b (life_of h a).
Proof. unfold life_of. apply fold_left_app. Qed.
Lemma rounds_life n : forall h, life_of h (rounds n) = if (h <? n)%nat then LOver else LNone.
Proof.
  induction n as [|n IH]; intros h; [reflexivity|]. cbn [rounds]. rewrite life_app, IH. cbn [fold_left life_step].
  destruct (Nat.eqb_spec n h) as [->|D].
  - cbn [Nat.eqb]. replace (h <? S h)%nat with true by (symmetry; apply Nat.ltb_lt; lia). destruct (h <? h)%nat; reflexivity.
  - destruct (Nat.ltb_spec h n) as [L|L].
    + replace (h <? S n)%nat with true by (symmetry; apply Nat.ltb_lt; lia). reflexivity.
    + replace (h <? S n)%nat with false by (symmetry; apply Nat.ltb_ge; lia). reflexivity.
Qed.
Lemma rounds_env1 n : env1 (rounds n) (KAccept 0 n true).
Proof.
  cbn [env1]. rewrite rounds_life. replace (n <? n)%nat with false by (symmetry; apply Nat.ltb_ge; lia). split; [reflexivity|]. intros g. rewrite rounds_life. destruct (g <? n)%nat; split; discriminate.
Qed.
Lemma rounds_env n : env_ok (rounds n).
Proof.
  induction n as [|n IH]; [exact I|]. cbn [rounds]. apply env_from_app; [exact IH|]. cbn [env_from app]. split; [apply rounds_env1|]. cbn [env1]. auto.
Qed.
Lemma rounds_begins n : begins (rounds n) = Z.of_nat n.
Proof. induction n as [|n IH]; [reflexivity|]. cbn [rounds]. rewrite begins_app, IH. change (begins [KAccept 0 n true; KBegin 0; KFinish 0]) with 1. lia. Qed.
Lemma crun_app a : forall s b, crun s (a ++ b) = (let? s' := crun s a in crun s' b).
Proof. induction a as [|o a IH]; intros s b; [reflexivity|]. cbn [crun app]. destruct (cstep s o); cbn [bind]; [apply IH|reflexivity..]. Qed.
Lemma rounds_next n : Z.of_nat n <= 2147483647 -> exists s, crun c0 (rounds n) = Ok s /\ kgood (rounds n) s /\ k_next s = Z.of_nat n.
Proof.
  induction n as [|n IH]; intros H; [exists c0; split; [reflexivity|]; split; [exact kgood0|reflexivity]|].
  destruct IH as (s & R & G & N); [lia|]. cbn [rounds]. rewrite crun_app, R. cbn [bind].
  destruct G as (K & F & _). destruct (kaccept _ _ _ _ _ K (rounds_env1 n)) as (s1 & S1 & K1 & _ & N1).
  destruct (kbegin _ s1 0%nat K1 ltac:(lia)) as (s2 & S2 & K2 & X).
  destruct (kfinish _ s2 0%nat K2) as (s3 & S3 & K3 & N3 & _).
  assert (L : life_of n (rounds n ++ [KAccept 0 n true]) = LWait 0) by (rewrite life_snoc; cbn [life_step]; rewrite Nat.eqb_refl; reflexivity).
  assert (N2 : k_next s2 = k_next s1 + 1).
  { destruct X as [(_ & _ & _ & X)|(h & c & _ & _ & _ & X & _)]; [|exact X]. exfalso.
    assert (L2 : life_of n ((rounds n ++ [KAccept 0 n true]) ++ [KBegin 0]) = LServe 0) by (rewrite life_snoc, L; reflexivity).
    apply (k_serve _ _ K2) in L2. apply (k_wait _ _ K1) in L. destruct L as (_ & L). rewrite X in L2. congruence. }
  exists s3. cbn [crun]. rewrite S1. cbn [bind]. rewrite S2. cbn [bind]. rewrite S3. cbn [bind]. split; [reflexivity|].
  split; [|lia].
  pose proof (rounds_env (S n)) as E. destruct (kgood_run (rounds (S n)) [] c0 kgood0 E) as (s4 & R4 & G4); [cbn [app]; rewrite rounds_begins; lia|].
  cbn [app] in G4. assert (s4 = s3); [|subst; exact G4].
  cbn [rounds] in R4. rewrite crun_app, R in R4. cbn [bind crun] in R4. rewrite S1 in R4. cbn [bind] in R4. rewrite S2 in R4. cbn [bind] in R4. rewrite S3 in R4. cbn [bind] in R4. congruence.
Qed.
Lemma rounds_out n : Z.of_nat n = 2147483647 -> env_ok (rounds (S n)) /\ crun c0 (rounds (S n)) = UB.
Proof.
  intros H. split; [apply rounds_env|]. destruct (rounds_next n ltac:(lia)) as (s & R & (K & _) & N). cbn [rounds]. rewrite crun_app, R. cbn [bind crun].
  destruct (kaccept _ _ _ _ _ K (rounds_env1 n)) as (s1 & S1 & K1 & _ & N1). rewrite S1. cbn [bind cstep]. unfold co_begin.
  assert (L : life_of n (rounds n ++ [KAccept 0 n true]) = LWait 0) by (rewrite life_snoc; cbn [life_step]; rewrite Nat.eqb_refl; reflexivity).
  destruct (k_wait _ _ K1 _ _ L) as (_ & E). rewrite E. destruct (alive s1 n && _); [|reflexivity]. cbv zeta.
  destruct (hold_rest s1 (HThread 0) n) as (_ & _ & _ & X4 & _). rewrite X4, N1, N, H. reflexivity.
Qed.

(** A coroutine that has not begun and whose STCo is gone. *)
Definition lost (t h : nat) (s : cst) : Prop :=
  exists c, thr_get (k_thr s) t = Some (TNew c h) /\ (alive s h = false \/ k_co s h <> Some t).
Lemma dead_ref s h : alive s h = false <-> forall w, has_ref s w h = false.
Proof.
  split.
  - intros H w. destruct (has_ref s w h) eqn:E; [|reflexivity]. rewrite (proj2 (alive_ref s h) (ex_intro _ w E)) in H. discriminate.
  - intros H. destruct (alive s h) eqn:E; [|reflexivity]. apply alive_ref in E as (w & E). rewrite H in E. discriminate.
Qed.
Lemma dead_hold s w g h : g <> h -> alive s h = false -> alive (hold s w g) h = false.
Proof. intros Hg H. apply dead_ref. intros w'. rewrite hold_ref, (proj1 (dead_ref s h) H), (eqb_no g h Hg), andb_false_r. reflexivity. Qed.
Lemma dead_let s w g h : alive s h = false -> alive (let_go s w g) h = false.
Proof. intros H. apply dead_ref. intros w'. rewrite let_ref, (proj1 (dead_ref s h) H). reflexivity. Qed.
Lemma lost_step t h s o : lost t h s -> elsewhere t h o -> cstep s o = UB \/ (o <> KBegin t /\ exists s', cstep s o = Ok s' /\ lost t h s').
Proof.
  intros (c & Ht & Hl) He. destruct o as [u g ok|u g ok|g|u|u|u]; cbn [cstep elsewhere] in *.
  - right. split; [discriminate|]. destruct He as (Hu & Hg). destruct ok; cbn [co_start]; (eexists; split; [reflexivity|]); exists c.
    + set (s1 := hold s HLocal g). set (s2 := mkc _ _ _ _ _ _). destruct (let_rest (hold s2 HSet g) HLocal g) as (X1 & X2 & _ & _). rewrite X1, X2.
      destruct (hold_rest s2 HSet g) as (Y1 & Y2 & _). rewrite Y1, Y2. cbn [k_thr k_co s2 thr_get]. destruct (hold_rest s HLocal g) as (V1 & V2 & _). fold s1 in V1, V2.
      rewrite V1, V2, (eqb_no t u), (eqb_no h g) by congruence. split; [exact Ht|]. destruct Hl as [Hl|Hl]; [left|right; exact Hl].
      apply dead_let, dead_hold; [exact Hg|]. change (alive s2 h) with (alive s1 h). apply dead_hold; assumption.
    + destruct (let_rest (hold s HLocal g) HLocal g) as (X1 & X2 & _ & _). rewrite X1, X2. destruct (hold_rest s HLocal g) as (V1 & V2 & _). rewrite V1, V2.
      split; [exact Ht|]. destruct Hl as [Hl|Hl]; [left|right; exact Hl]. apply dead_let, dead_hold; assumption.
  - right. split; [discriminate|]. destruct He as (Hu & Hg). destruct (hold_rest s HOther g) as (V1 & V2 & _). destruct ok; cbn [co_start fst]; (eexists; split; [reflexivity|]); exists c.
    + cbn [k_thr k_co thr_get]. rewrite V1, V2, (eqb_no t u), (eqb_no h g) by congruence. split; [exact Ht|]. destruct Hl as [Hl|Hl]; [left|right; exact Hl].
      match goal with |- alive ?x h = false => change (alive x h) with (alive (hold s HOther g) h) end. apply dead_hold; assumption.
    + rewrite V1, V2. split; [exact Ht|]. destruct Hl as [Hl|Hl]; [left|right; exact Hl]. apply dead_hold; assumption.
  - right. split; [discriminate|]. eexists. split; [reflexivity|]. destruct (let_rest s HOther g) as (X1 & X2 & _ & _). exists c. rewrite X1, X2.
    split; [exact Ht|]. destruct Hl as [Hl|Hl]; [left; apply dead_let; exact Hl|right; exact Hl].
  - destruct (Nat.eq_dec u t) as [->|Hu].
    + left. unfold co_begin. rewrite Ht. replace (alive s h && _) with false; [reflexivity|].
      destruct Hl as [->|Hl]; [reflexivity|]. destruct (k_co s h) as [v|]; [|symmetry; apply andb_false_r].
      destruct (Nat.eqb_spec v t) as [->|]; [congruence|symmetry; apply andb_false_r].
    + unfold co_begin. destruct (thr_get (k_thr s) u) as [[c' g|c' g]|] eqn:Eu; [|right; split; [congruence|]; exists s; split; [reflexivity|exists c; auto]..].
      destruct (alive s g) eqn:Ea; [|left; reflexivity]. cbn [andb]. destruct (k_co s g) as [v|] eqn:Ek; [|left; reflexivity].
      destruct (Nat.eqb v u); [|left; reflexivity]. destruct (_ =? 2147483647); [left; reflexivity|].
      right. split; [congruence|]. eexists. split; [reflexivity|]. exists c. destruct (hold_rest s (HThread u) g) as (V1 & V2 & _).
      cbn [k_thr k_co thr_get]. rewrite V1, V2, (eqb_no t u), thr_del_get, (eqb_no t u) by congruence. split; [exact Ht|].
      destruct Hl as [Hl|Hl]; [left|right; exact Hl].
      match goal with |- alive ?x h = false => change (alive x h) with (alive (hold s (HThread u) g) h) end. apply dead_hold; [congruence|exact Hl].
  - right. split; [discriminate|]. eexists. split; [reflexivity|]. exists c. unfold co_log. destruct (thr_get (k_thr s) u) as [[]|]; cbn [k_thr k_co]; auto.
  - right. split; [discriminate|]. eexists. split; [reflexivity|]. exists c. unfold co_finish. destruct (thr_get (k_thr s) u) as [[c' g|c' g]|] eqn:Eu; [auto| |auto].
    assert (Hu : t <> u) by congruence. set (s1 := if c' then _ else _). set (s2 := mkc _ _ _ _ _ _).
    destruct (let_rest s2 (HThread u) g) as (X1 & X2 & _ & _). rewrite X1, X2. cbn [k_thr k_co s2]. rewrite thr_del_get, (eqb_no t u) by exact Hu.
    assert (k_co s1 = k_co s /\ k_thr s1 = k_thr s /\ (alive s h = false -> alive s1 h = false)) as (Y1 & Y2 & Y3).
    { unfold s1. destruct c'; [|auto]. destruct (let_rest s HSet g) as (A1 & A2 & _ & _). split; [exact A1|]. split; [exact A2|]. apply dead_let. }
    rewrite Y1, Y2. split; [exact Ht|]. destruct Hl as [Hl|Hl]; [left|right; exact Hl]. apply dead_let. change (alive s2 h) with (alive s1 h). auto.
Qed.
Lemma lost_run t h os : forall s, lost t h s -> Forall (elsewhere t h) os -> In (KBegin t) os -> crun s os = UB.
Proof.
  induction os as [|o os IH]; intros s Hl HF Hin; [destruct Hin|]. inversion HF; subst. cbn [crun].
  destruct (lost_step t h s o Hl H1) as [->|(Ho & s' & -> & Hl')]; [reflexivity|]. cbn [bind].
  destruct Hin as [->|Hin]; [congruence|]. auto.
Qed.
Lemma new_stays t h s o : thr_get (k_thr s) t = Some (TNew false h) -> elsewhere t h o -> o <> KBegin t ->
  cstep s o = UB \/ exists s', cstep s o = Ok s' /\ thr_get (k_thr s') t = Some (TNew false h).
Proof.
  intros Ht He Hb. destruct o as [u g ok|u g ok|g|u|u|u]; cbn [cstep elsewhere] in *.
  - right. destruct He as (Hu & Hg). destruct ok; cbn [co_start]; (eexists; split; [reflexivity|]).
    + rewrite (proj1 (proj2 (let_rest _ _ _))), (proj1 (proj2 (hold_rest _ _ _))). cbn [k_thr thr_get]. rewrite (proj1 (proj2 (hold_rest _ _ _))), (eqb_no t u) by congruence. exact Ht.
    + rewrite (proj1 (proj2 (let_rest _ _ _))), (proj1 (proj2 (hold_rest _ _ _))). exact Ht.
  - right. destruct He as (Hu & Hg). destruct ok; cbn [co_start fst]; (eexists; split; [reflexivity|]).
    + cbn [k_thr thr_get]. rewrite (proj1 (proj2 (hold_rest _ _ _))), (eqb_no t u) by congruence. exact Ht.
    + rewrite (proj1 (proj2 (hold_rest _ _ _))). exact Ht.
  - right. eexists. split; [reflexivity|]. rewrite (proj1 (proj2 (let_rest _ _ _))). exact Ht.
  - unfold co_begin. destruct (thr_get (k_thr s) u) as [[c' g|c' g]|] eqn:Eu; [|right; exists s; auto..].
    destruct (alive s g && _); [|left; reflexivity]. cbv zeta. destruct (_ =? 2147483647); [left; reflexivity|].
    right. eexists. split; [reflexivity|]. cbn [k_thr thr_get]. rewrite (proj1 (proj2 (hold_rest _ _ _))), (eqb_no t u), thr_del_get, (eqb_no t u) by congruence. exact Ht.
  - right. eexists. split; [reflexivity|]. unfold co_log. destruct (thr_get (k_thr s) u) as [[]|]; exact Ht.
  - right. eexists. split; [reflexivity|]. unfold co_finish. destruct (thr_get (k_thr s) u) as [[c' g|c' g]|] eqn:Eu; [exact Ht| |exact Ht].
    rewrite (proj1 (proj2 (let_rest _ _ _))). cbn [k_thr]. rewrite thr_del_get, (eqb_no t u) by congruence.
    destruct c'; [rewrite (proj1 (proj2 (let_rest _ _ _)))|]; exact Ht.
Qed.
Lemma env_split a : forall pre o b, env_from pre (a ++ o :: b) -> env_from pre a /\ env1 (pre ++ a) o /\ env_from (pre ++ a ++ [o]) b.
Proof.
  induction a as [|x a IH]; intros pre o b H; cbn [app env_from] in *; [rewrite app_nil_r; tauto|].
  destruct H as (H1 & H2). destruct (IH _ _ _ H2) as (A & B & C). rewrite <- app_assoc in B, C. cbn [app] in *. tauto.
Qed.
