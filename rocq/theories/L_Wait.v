(** Waiting with time: lemmas. *)
From Verif Require Import Base M_Packet M_Cache M_Live M_Wait S_Cache S_Live S_Wait L_Live L_Live2 L_Live3.

Lemma t_get_set l v x w : t_get (t_set l v x) w = if Nat.eqb w v then Some x else t_get l w.
Proof.
  induction l as [|[u p] l IH]; cbn [t_set t_get].
  - destruct (Nat.eqb w v); reflexivity.
  - destruct (Nat.eqb v u) eqn:E; cbn [t_get].
    + apply Nat.eqb_eq in E. subst u. destruct (Nat.eqb w v); reflexivity.
    + destruct (Nat.eqb w u) eqn:F.
      * apply Nat.eqb_eq in F. subst u. rewrite Nat.eqb_sym, E. reflexivity.
      * exact IH.
Qed.
Lemma t_get_map f l w : t_get (t_map f l) w = option_map (f w) (t_get l w).
Proof.
  induction l as [|[u p] l IH]; [reflexivity|]. cbn [t_map map t_get fst snd]. destruct (Nat.eqb w u) eqn:E.
  - apply Nat.eqb_eq in E. subst u. reflexivity.
  - exact IH.
Qed.
Lemma t_get_in l v p : t_get l v = Some p -> In (v, p) l.
Proof.
  induction l as [|[u q] l IH]; [discriminate|]. cbn [t_get]. destruct (Nat.eqb v u) eqn:E.
  - apply Nat.eqb_eq in E. subst u. intros [= ->]. left. reflexivity.
  - intros H. right. auto.
Qed.

(** ** What an event of M_Live does to a viewer *)
Definition attached (l : live) (v : nat) : Prop := exists x, l_views l v = Some x /\ v_alive x = true.
Lemma deliver_view vs w p v : (deliver vs w p) v = vs v \/
  exists x, vs v = Some x /\ (deliver vs w p) v = Some (mkv (v_cid x) (v_addr x) (v_queue x ++ [p]) (v_got x) (v_alive x)).
Proof.
  unfold deliver. destruct (vs w) as [x|] eqn:E; [|left; reflexivity]. unfold updn. destruct (Nat.eqb v w) eqn:F; [|left; reflexivity].
  apply Nat.eqb_eq in F. subst w. right. exists x. split; [exact E|reflexivity].
Qed.
(** A viewer before and after a put: more in the queue, nothing else. *)
Definition grew (a b : option viewer) : Prop :=
  match a, b with
  | None, None => True
  | Some x, Some y => v_alive y = v_alive x /\ v_cid y = v_cid x /\ v_got y = v_got x /\ exists q, v_queue y = v_queue x ++ q
  | _, _ => False
  end.
Lemma grew_refl a : grew a a.
Proof. destruct a; cbn; [|exact I]. repeat split. exists []. rewrite app_nil_r. reflexivity. Qed.
Lemma grew_trans a b c : grew a b -> grew b c -> grew a c.
Proof.
  destruct a, b, c; cbn; try tauto. intros (A1 & B1 & C1 & q1 & D1) (A2 & B2 & C2 & q2 & D2). repeat split; try congruence.
  exists (q1 ++ q2). rewrite D2, D1, app_assoc. reflexivity.
Qed.
Lemma publish_views es vs p v : grew (vs v) (fst (publish_to vs es p) v).
Proof.
  revert vs. induction es as [|e es IH]; intros vs; [apply grew_refl|]. cbn [publish_to].
  destruct (is_alive vs (fst e)).
  - specialize (IH (deliver vs (fst e) p)). destruct (publish_to (deliver vs (fst e) p) es p) as [vs' k]. cbn [fst] in *.
    eapply grew_trans; [|exact IH]. destruct (deliver_view vs (fst e) p v) as [->|(x & Ex & ->)]; [apply grew_refl|].
    rewrite Ex. cbn. repeat split. eexists. reflexivity.
  - apply IH.
Qed.
Lemma cache_put_views shape s c p v : grew (l_views s v) (l_views (cache_put shape s c p) v).
Proof.
  unfold cache_put. pose proof (publish_views (inorder (c_subs (l_caches s c))) (l_views s) p v) as H.
  destruct (publish_to (l_views s) (inorder (c_subs (l_caches s c))) p). exact H.
Qed.
Lemma cache_put_rest shape s c p : l_reg (cache_put shape s c p) = l_reg s /\ l_edges (cache_put shape s c p) = l_edges s /\
  l_src (cache_put shape s c p) = l_src s.
Proof. unfold cache_put. destruct (publish_to (l_views s) (inorder (c_subs (l_caches s c))) p). repeat split. Qed.

Lemma fold_release_rest ks s : l_edges (fold_left release ks s) = l_edges s /\ l_src (fold_left release ks s) = l_src s /\
  l_views (fold_left release ks s) = l_views s.
Proof. revert s. induction ks as [|k ks IH]; intros s; [repeat split|]. cbn [fold_left]. destruct (IH (release s k)) as (A & B & C). rewrite A, B, C. repeat split. Qed.

(** The edges themselves. *)
Definition einv (l : live) : Prop :=
  (forall n e, l_edges l n = Some e -> pulls l e n) /\
  (forall i ks, l_src l i = Some (SActive true ks) -> exists n c, ks = [(n, c)]) /\
  (forall i b ks, l_src l i = Some (SLeft b ks) -> exists n, ks = [n]).

Lemma updn_same {A} (f : nat -> A) k v : updn f k v k = v.
Proof. unfold updn. rewrite Nat.eqb_refl. reflexivity. Qed.
Lemma updn_other {A} (f : nat -> A) k v j : j <> k -> updn f k v j = f j.
Proof. intros H. unfold updn. apply Nat.eqb_neq in H. rewrite H. reflexivity. Qed.
Lemma updk_same {A} (f : list Z -> A) k v : updk f k v k = v.
Proof. unfold updk. rewrite eqb_list_refl. reflexivity. Qed.
Lemma updk_other {A} (f : list Z -> A) k v j : j <> k -> updk f k v j = f j.
Proof. intros H. unfold updk. rewrite eqb_list_neq by exact H. reflexivity. Qed.
Lemma updk_none {A} (f : list Z -> option A) k j x : updk f k None j = Some x -> j <> k /\ f j = Some x.
Proof. unfold updk. destruct (eqb_list j k) eqn:E; [discriminate|]. intros H. split; [|exact H]. intros ->. rewrite eqb_list_refl in E. discriminate. Qed.

(** What each event does to sources and names. *)
Inductive effect (l l' : live) : op -> Prop :=
  | ef_same o : l_src l' = l_src l -> l_edges l' = l_edges l -> l_reg l' = l_reg l -> effect l l' o
  | ef_pub i n c : l_src l i = None -> l_src l' = updn (l_src l) i (Some (SActive false [(n, c)])) -> l_edges l' = l_edges l ->
      l_reg l' = updk (l_reg l) n (Some c) -> effect l l' (OPublish i n)
  | ef_srt i n c d : l_src l i = None -> l_src l' = updn (l_src l) i (Some (SActive false [(n, c); (TS_PREFIX ++ n, d)])) -> l_edges l' = l_edges l ->
      l_reg l' = updk (updk (l_reg l) n (Some c)) (TS_PREFIX ++ n) (Some d) -> effect l l' (OSrtPublish i n)
  | ef_start i n : l_src l i = None -> l_edges l n = None -> l_reg l n = None -> l_src l' = updn (l_src l) i (Some (SOpening n)) ->
      l_edges l' = updk (l_edges l) n (Some i) -> l_reg l' = l_reg l -> effect l l' (OEdgeStart i n)
  | ef_open i n c : l_src l i = Some (SOpening n) -> l_src l' = updn (l_src l) i (Some (SActive true [(n, c)])) -> l_edges l' = l_edges l ->
      l_reg l' = updk (l_reg l) n (Some c) -> effect l l' (OEdgeOpen i)
  | ef_end_pub i ks : l_src l i = Some (SActive false ks) -> l_src l' = updn (l_src l) i (Some SDone) -> l_edges l' = l_edges l ->
      (forall n x, l_reg l' n = Some x -> l_reg l n = Some x) -> effect l l' (OEnd i)
  | ef_end_opening i n : l_src l i = Some (SOpening n) -> l_src l' = updn (l_src l) i (Some (SLeft false [n])) ->
      l_edges l' = updk (l_edges l) n None -> l_reg l' = l_reg l -> effect l l' (OEnd i)
  | ef_end_active i n c : l_src l i = Some (SActive true [(n, c)]) -> l_src l' = updn (l_src l) i (Some (SLeft true [n])) ->
      l_edges l' = updk (l_edges l) n None -> l_reg l' = updk (l_reg l) n None -> effect l l' (OEnd i)
  | ef_drop i n b : l_src l i = Some (SLeft b [n]) -> l_src l' = updn (l_src l) i (Some SDone) ->
      l_edges l' = updk (l_edges l) n None -> l_reg l' = (if b : bool then updk (l_reg l) n None else l_reg l) -> effect l l' (OEdgeDrop i).
Lemma fold_release_reg ks s n x : l_reg (fold_left release ks s) n = Some x -> l_reg s n = Some x.
Proof.
  revert s. induction ks as [|k ks IH]; intros s H; [exact H|]. cbn [fold_left] in H. apply IH in H. cbn [release l_reg] in H.
  apply updk_none in H. apply H.
Qed.
Lemma step_effect shape l o : einv l -> effect l (fst (step shape l o)) o.
Proof.
  intros (A & C & D). destruct o as [i n|i n|i n|i|i k p|i|i|v a n|v|v|v]; cbn [step].
  - destruct (l_src l i) eqn:Ei; [apply ef_same; reflexivity|]. destruct (l_reg l n); [apply ef_same; reflexivity|].
    eapply ef_pub; [exact Ei|reflexivity..].
  - destruct (l_src l i) eqn:Ei; [apply ef_same; reflexivity|]. destruct (l_reg l n); [apply ef_same; reflexivity|].
    eapply ef_srt; [exact Ei|reflexivity..].
  - destruct (l_src l i) eqn:Ei; [apply ef_same; reflexivity|]. destruct (l_reg l n) eqn:Er; [apply ef_same; reflexivity|].
    destruct (l_edges l n) eqn:Ee; [apply ef_same; reflexivity|]. eapply ef_start; [exact Ei|exact Ee|exact Er|reflexivity..].
  - destruct (l_src l i) as [[n|e ks|b ks|]|] eqn:Ei; try (apply ef_same; reflexivity). eapply ef_open; [exact Ei|reflexivity..].
  - destruct (l_src l i) as [[n|e ks|b ks|]|] eqn:Ei; try (apply ef_same; reflexivity). destruct (nth_error ks k) as [[m c]|]; [|apply ef_same; reflexivity].
    destruct (cache_put_rest shape l c p) as (E1 & E2 & E3). apply ef_same; assumption.
  - destruct (l_src l i) as [[n|[] ks|b ks|]|] eqn:Ei; try (apply ef_same; reflexivity).
    + eapply ef_end_opening; [exact Ei|reflexivity..].
    + destruct (C _ _ Ei) as (n & c & ->). eapply ef_end_active; [exact Ei|reflexivity..].
    + destruct (fold_release_rest (map fst ks) l) as (E1 & E2 & _). eapply ef_end_pub; [exact Ei| | |]; cbn [fst set_src l_src l_edges l_reg].
      * rewrite E2. reflexivity.
      * exact E1.
      * intros n x. apply fold_release_reg.
  - destruct (l_src l i) as [[n|e ks|b ks|]|] eqn:Ei; try (apply ef_same; reflexivity).
    destruct (D _ _ _ Ei) as (n & ->). eapply ef_drop; [exact Ei|..]; destruct b; reflexivity.
  - destruct (l_views l v); [apply ef_same; reflexivity|]. destruct (l_reg l n); apply ef_same; reflexivity.
  - destruct (l_views l v) as [x|]; [|apply ef_same; reflexivity]. destruct (v_alive x); apply ef_same; reflexivity.
  - destruct (l_views l v) as [x|]; [|apply ef_same; reflexivity]. destruct (v_alive x); apply ef_same; reflexivity.
  - destruct (l_views l v) as [x|]; [|apply ef_same; reflexivity]. destruct (v_alive x); apply ef_same; reflexivity.
Qed.

Lemma einv0 : einv live0.
Proof. repeat split; discriminate. Qed.
Lemma einv_ext l l' : l_edges l' = l_edges l -> l_src l' = l_src l -> einv l -> einv l'.
Proof. unfold einv, pulls. intros -> ->. tauto. Qed.
(** A pull goes on until it ends. *)
Lemma pulls_stay l l' o e n : effect l l' o -> o <> OEnd e -> pulls l e n -> pulls l' e n.
Proof.
  unfold pulls. intros Hf Ho H.
  assert (U : forall i x, e <> i -> l_src l' = updn (l_src l) i x -> l_src l' e = Some (SOpening n) \/ (exists c, l_src l' e = Some (SActive true [(n, c)]))).
  { intros i x Hne E. rewrite E, updn_other by exact Hne. exact H. }
  assert (N : forall i, l_src l i = None -> e <> i) by (intros i Ei ->; rewrite Ei in H; destruct H as [H|(c & H)]; discriminate).
  destruct Hf as [o E _ _|i m c Ei E _ _|i m c d Ei E _ _|i m Ei _ _ E _ _|i m c Ei E _ _|i ks Ei E _ _|i m Ei E _ _|i m c Ei E _ _|i m b Ei E _ _].
  - rewrite E. exact H.
  - eapply U; [apply N, Ei|exact E].
  - eapply U; [apply N, Ei|exact E].
  - eapply U; [apply N, Ei|exact E].
  - destruct (Nat.eq_dec e i) as [->|Hne]; [|eapply U; [exact Hne|exact E]]. rewrite Ei in H.
    destruct H as [H|(c' & H)]; [|discriminate]. injection H as <-. right. exists c. rewrite E. apply updn_same.
  - apply (U i (Some SDone)); [|exact E]. intros ->. congruence.
  - apply (U i (Some (SLeft false [m]))); [|exact E]. intros ->. congruence.
  - apply (U i (Some (SLeft true [m]))); [|exact E]. intros ->. congruence.
  - apply (U i (Some SDone)); [|exact E]. intros ->. rewrite Ei in H. destruct H as [H|(c' & H)]; discriminate.
Qed.
Lemma einv_effect l l' o : effect l l' o -> einv l -> einv l'.
Proof.
  intros Hf I. pose proof I as (A & C & D). unfold einv.
  assert (Cx : forall i x, l_src l' = updn (l_src l) i (Some x) -> (forall ks, x = SActive true ks -> exists n c, ks = [(n, c)]) ->
     forall j ks, l_src l' j = Some (SActive true ks) -> exists n c, ks = [(n, c)]).
  { intros i x E Hx j ks. rewrite E. unfold updn. destruct (Nat.eqb j i); [intros [= ->]; auto|apply C]. }
  assert (Dx : forall i x, l_src l' = updn (l_src l) i (Some x) -> (forall b ks, x = SLeft b ks -> exists n, ks = [n]) ->
     forall j b ks, l_src l' j = Some (SLeft b ks) -> exists n, ks = [n]).
  { intros i x E Hx j b ks. rewrite E. unfold updn. destruct (Nat.eqb j i); [intros [= ->]; eauto|apply D]. }
  pose proof (fun e n => pulls_stay l l' o e n Hf) as P.
  destruct Hf as [o E Ee _|i m c Ei E Ee _|i m c d Ei E Ee _|i m Ei _ _ E Ee _|i m c Ei E Ee _|i ks Ei E Ee _|i m Ei E Ee _|i m c Ei E Ee _|i m b Ei E Ee _].
  - unfold pulls. rewrite E, Ee. exact I.
  - split; [|split; [eapply Cx; [exact E|discriminate]|eapply Dx; [exact E|discriminate]]]. rewrite Ee. intros n e H. apply P; [discriminate|auto].
  - split; [|split; [eapply Cx; [exact E|discriminate]|eapply Dx; [exact E|discriminate]]]. rewrite Ee. intros n e H. apply P; [discriminate|auto].
  - split; [|split; [eapply Cx; [exact E|discriminate]|eapply Dx; [exact E|discriminate]]]. rewrite Ee. intros n e.
    destruct (list_eq_dec Z.eq_dec n m) as [->|Hm]; [rewrite updk_same|rewrite updk_other by exact Hm].
    + intros [= <-]. left. rewrite E. apply updn_same.
    + intros H. apply P; [discriminate|auto].
  - split; [|split; [eapply Cx; [exact E|]|eapply Dx; [exact E|discriminate]]]. { rewrite Ee. intros n e H. apply P; [discriminate|auto]. }
    intros ks [= <-]. eauto.
  - split; [|split; [eapply Cx; [exact E|discriminate]|eapply Dx; [exact E|discriminate]]]. rewrite Ee. intros n e H. apply P; [|auto].
    intros [= ->]. apply A in H. unfold pulls in H. rewrite Ei in H. destruct H as [H|(c & H)]; discriminate.
  - split; [|split; [eapply Cx; [exact E|discriminate]|eapply Dx; [exact E|]]]; [|intros b ks [= _ <-]; eauto]. rewrite Ee. intros n e H.
    apply updk_none in H. destruct H as (Hn & H). apply P; [|auto]. intros [= ->]. apply A in H. unfold pulls in H. rewrite Ei in H. destruct H as [H|(c & H)]; congruence.
  - split; [|split; [eapply Cx; [exact E|discriminate]|eapply Dx; [exact E|]]]; [|intros b ks [= _ <-]; eauto]. rewrite Ee. intros n e H.
    apply updk_none in H. destruct H as (Hn & H). apply P; [|auto]. intros [= ->]. apply A in H. unfold pulls in H. rewrite Ei in H. destruct H as [H|(c' & H)]; congruence.
  - split; [|split; [eapply Cx; [exact E|discriminate]|eapply Dx; [exact E|discriminate]]]. rewrite Ee. intros n e H.
    apply updk_none in H. destruct H as (Hn & H). apply P; [discriminate|auto].
Qed.
Lemma einv_step shape l o : einv l -> einv (fst (step shape l o)).
Proof. intros I. eapply einv_effect; [apply step_effect; exact I|exact I]. Qed.

(** The edge a player refers to still has its name. *)
Definition tied (l : live) (e : nat) (n : list Z) : Prop := pulls l e n \/ exists b, l_src l e = Some (SLeft b [n]).
Lemma tied_stay l l' o e n : effect l l' o -> o <> OEdgeDrop e -> tied l e n -> tied l' e n.
Proof.
  intros Hf Ho [H|(b & H)].
  - destruct (match o with OEnd j => Nat.eqb j e | _ => false end) eqn:Eo.
    + destruct o as [| | | | |j| | | | |]; try discriminate. apply Nat.eqb_eq in Eo. subst j. unfold pulls in H.
      inversion Hf as [o E _ _| | | | |i ks Ei E _ _|i m Ei E _ _|i m c Ei E _ _|]; subst.
      * left. unfold pulls. rewrite E. exact H.
      * rewrite Ei in H. destruct H as [H|(c & H)]; discriminate.
      * rewrite Ei in H. destruct H as [H|(c & H)]; [|discriminate]. injection H as ->. right. exists false. rewrite E. apply updn_same.
      * rewrite Ei in H. destruct H as [H|(c' & H)]; [discriminate|]. injection H as -> _. right. exists true. rewrite E. apply updn_same.
    + left. eapply pulls_stay; [exact Hf| |exact H]. intros ->. rewrite Nat.eqb_refl in Eo. discriminate.
  - right. exists b.
    destruct Hf as [o E _ _|i m c Ei E _ _|i m c d Ei E _ _|i m Ei _ _ E _ _|i m c Ei E _ _|i ks Ei E _ _|i m Ei E _ _|i m c Ei E _ _|i m b' Ei E _ _];
      rewrite E; try exact H; (rewrite updn_other; [exact H|]); intros ->; congruence.
Qed.

(** ** The invariant of the players *)
Definition pinv (now : Z) (l : live) (v : nat) (p : pstate) : Prop :=
  match p with
  | PEdge n e b t => t <= now <= t + WAIT_US /\ pulls l e n /\ l_views l v = None
  | PWoken n o t => t <= now <= t + WAIT_US /\ l_views l v = None /\ (forall e, o = Some e -> tied l e n)
  | PWriting => attached l v
  | PIdle t => t <= now <= t + WAIT_US /\ attached l v /\ queue_of l v = []
  | PReady t => t <= now <= t + WAIT_US /\ attached l v /\ (queue_of l v <> [] \/ now = t + WAIT_US)
  | PEnd t a c => t <= a <= t + WAIT_US /\ a <= now /\
      (c = ERROR_STREAM_SOURCE_NOT_EXITS /\ l_views l v = None \/ (exists x, l_views l v = Some x) /\ (c = ERROR_SOCKET_TIMEOUT /\ a = t + WAIT_US \/ c <> 0 /\ a = t))
  end.
Record winv (s : wst) : Prop := mkwinv {
  wi_edges : einv (w_live s);
  wi_thr : forall v p, t_get (w_thr s) v = Some p -> pinv (w_now s) (w_live s) v p;
  wi_views : forall v x, l_views (w_live s) v = Some x -> t_get (w_thr s) v <> None;
  wi_own : forall v w p q e, t_get (w_thr s) v = Some p -> t_get (w_thr s) w = Some q -> owns p = Some e -> owns q = Some e -> v = w }.
Lemma winv0 : winv w0.
Proof. split; [exact einv0| | |]; discriminate. Qed.

Lemma owns_tied now l v p e : pinv now l v p -> owns p = Some e -> exists n, tied l e n.
Proof.
  destruct p as [n e' [] t|n o t| | | |]; try discriminate; cbn [pinv owns].
  - intros (_ & H & _) [= <-]. exists n. left. exact H.
  - intros (_ & _ & H) ->. exists n. auto.
Qed.
Lemma tied_some l e n : tied l e n -> l_src l e <> None.
Proof. unfold tied, pulls. intros [[H|(c & H)]|(b & H)]; congruence. Qed.
Lemma held_not l i v p : held l i = false -> t_get l v = Some p -> owns p <> Some i.
Proof.
  intros H G E. apply t_get_in in G. assert (K : held l i = true).
  { apply existsb_exists. exists (v, p). split; [exact G|]. cbn [snd]. rewrite E. apply Nat.eqb_refl. }
  congruence.
Qed.
(** Waking does not change who refers to what. *)
Lemma wake_owns i v p : owns (wake_edge i v p) = owns p.
Proof. destruct p as [n e [] t|n o t| | | |]; cbn [wake_edge]; try reflexivity; destruct (Nat.eqb e i); reflexivity. Qed.
Lemma expire_owns now v p : owns (expire now v p) = owns p.
Proof. destruct p as [n e [] t|n o t| |t|t|]; cbn [expire]; try reflexivity; destruct (_ <=? _); reflexivity. Qed.
Lemma data_owns l v p : owns (wake_data l v p) = owns p.
Proof. destruct p as [n e [] t|n o t| |t|t|]; cbn [wake_data]; try reflexivity; destruct (queue_of l v); reflexivity. Qed.
Definition own_ok (thr : threads) : Prop := forall v w p q e, t_get thr v = Some p -> t_get thr w = Some q -> owns p = Some e -> owns q = Some e -> v = w.
Lemma own_map f thr : (forall v p, owns (f v p) = owns p) -> own_ok thr -> own_ok (t_map f thr).
Proof.
  intros Hf H v w p q e H1 H2 H3 H4. rewrite t_get_map in H1, H2.
  destruct (t_get thr v) eqn:E1; [|discriminate]. destruct (t_get thr w) eqn:E2; [|discriminate]. injection H1 as <-. injection H2 as <-.
  rewrite Hf in H3, H4. eapply H; eauto.
Qed.
Lemma own_set thr v p : own_ok thr -> (forall e w q, owns p = Some e -> w <> v -> t_get thr w = Some q -> owns q <> Some e) -> own_ok (t_set thr v p).
Proof.
  intros H Hp u w x y e H1 H2 H3 H4. rewrite t_get_set in H1, H2.
  destruct (Nat.eqb_spec u v) as [->|Hu]; destruct (Nat.eqb_spec w v) as [->|Hw].
  - reflexivity.
  - injection H1 as <-. exfalso. eapply Hp; eauto.
  - injection H2 as <-. exfalso. eapply Hp; eauto.
  - eapply H; eauto.
Qed.

Lemma source_views shape l o v : by_source o = true -> grew (l_views l v) (l_views (fst (step shape l o)) v).
Proof.
  destruct o as [i n|i n|i n|i|i k p|i|i|u a n|u|u|u]; try discriminate; intros _; cbn [step].
  - destruct (l_src l i); [apply grew_refl|]. destruct (l_reg l n); apply grew_refl.
  - destruct (l_src l i); [apply grew_refl|]. destruct (l_reg l n); apply grew_refl.
  - destruct (l_src l i) as [[n|e ks|b ks|]|]; apply grew_refl.
  - destruct (l_src l i) as [[n|e ks|b ks|]|]; try apply grew_refl. destruct (nth_error ks k) as [[m c]|]; [|apply grew_refl]. apply cache_put_views.
  - assert (G : forall ks s, l_views (fold_left (fun (a : live) (k : list Z) => set_edge a k None) ks s) = l_views s).
    { induction ks as [|k ks IH]; intros s; [reflexivity|]. cbn [fold_left]. rewrite IH. reflexivity. }
    destruct (l_src l i) as [[n|[] ks|b ks|]|]; try apply grew_refl; cbn [fst set_src l_views].
    + rewrite G. destruct (fold_release_rest (map fst ks) l) as (_ & _ & ->). apply grew_refl.
    + destruct (fold_release_rest (map fst ks) l) as (_ & _ & ->). apply grew_refl.
Qed.
Lemma drop_keeps_views shape l i : l_views (fst (step shape l (OEdgeDrop i))) = l_views l.
Proof. cbn [step]. destruct (l_src l i) as [[n|e ks|b ks|]|]; try reflexivity. cbn [fst set_src l_views]. apply drop_views. Qed.
Lemma source_noput_views shape l o v : by_source o = true -> (forall i k p, o <> OPut i k p) -> l_views (fst (step shape l o)) v = l_views l v.
Proof.
  destruct o as [i n|i n|i n|i|i k p|i|i|u a n|u|u|u]; try discriminate; intros _ H; cbn [step].
  - destruct (l_src l i); [reflexivity|]. destruct (l_reg l n); reflexivity.
  - destruct (l_src l i); [reflexivity|]. destruct (l_reg l n); reflexivity.
  - destruct (l_src l i) as [[n|e ks|b ks|]|]; reflexivity.
  - exfalso. eapply H. reflexivity.
  - assert (G : forall ks s, l_views (fold_left (fun (a : live) (k : list Z) => set_edge a k None) ks s) = l_views s).
    { induction ks as [|k ks IH]; intros s; [reflexivity|]. cbn [fold_left]. rewrite IH. reflexivity. }
    destruct (l_src l i) as [[n|[] ks|b ks|]|]; try reflexivity; cbn [fst set_src l_views].
    + rewrite G. destruct (fold_release_rest (map fst ks) l) as (_ & _ & ->). reflexivity.
    + destruct (fold_release_rest (map fst ks) l) as (_ & _ & ->). reflexivity.
Qed.
Lemma grew_attached l l' v : grew (l_views l v) (l_views l' v) -> attached l v -> attached l' v.
Proof.
  intros G (x & E & H). rewrite E in G. destruct (l_views l' v) as [y|] eqn:E'; [|destruct G]. destruct G as (G & _). exists y. split; [exact E'|congruence].
Qed.
Lemma grew_none l l' v : grew (l_views l v) (l_views l' v) -> l_views l v = None -> l_views l' v = None.
Proof. intros G E. rewrite E in G. destruct (l_views l' v); [destruct G|reflexivity]. Qed.
Lemma grew_some l l' v : grew (l_views l v) (l_views l' v) -> (exists x, l_views l v = Some x) -> exists x, l_views l' v = Some x.
Proof. intros G (x & E). rewrite E in G. destruct (l_views l' v); [eauto|destruct G]. Qed.
Lemma grew_queue l l' v : grew (l_views l v) (l_views l' v) -> queue_of l v <> [] -> queue_of l' v <> [].
Proof.
  unfold queue_of. intros G H. destruct (l_views l v) as [x|]; [|congruence]. destruct (l_views l' v) as [y|]; [|destruct G].
  destruct G as (_ & _ & _ & q & ->). intros E. apply app_eq_nil in E. apply H, E.
Qed.

(** An event that changes one viewer only. *)
Lemma pinv_other now l l' v p : l_src l' = l_src l -> l_views l' v = l_views l v -> pinv now l v p -> pinv now l' v p.
Proof. unfold pinv, attached, queue_of, tied, pulls. intros E1 E2. destruct p; rewrite ?E1, ?E2; tauto. Qed.
(** An event of a source. *)
Lemma pinv_src now l l' o v p : effect l l' o -> l_views l' v = l_views l v -> (forall n e b t, p = PEdge n e b t -> o <> OEnd e) ->
  (forall e, owns p = Some e -> o <> OEdgeDrop e) -> pinv now l v p -> pinv now l' v p.
Proof.
  intros Hf E2 H1 H2. destruct p as [n e b t|n o' t| | | |]; unfold pinv, attached, queue_of; rewrite ?E2; try tauto.
  - intros (P1 & P2 & P3). split; [exact P1|]. split; [|exact P3]. eapply pulls_stay; [exact Hf| |exact P2]. eapply H1. reflexivity.
  - intros (P1 & P2 & P3). split; [exact P1|]. split; [exact P2|]. intros e E. eapply tied_stay; [exact Hf| |apply P3; exact E]. apply H2. exact E.
Qed.

Lemma step_play shape l v a n : l_views l v = None ->
  match l_reg l n with
  | Some _ => exists l', step shape l (OPlay v a n) = (l', Done) /\ l_edges l' = l_edges l /\ l_src l' = l_src l /\ l_reg l' = l_reg l /\
      (forall w, w <> v -> l_views l' w = l_views l w) /\ attached l' v
  | None => step shape l (OPlay v a n) = (l, Refused ERROR_STREAM_SOURCE_NOT_EXITS)
  end.
Proof.
  intros H. cbn [step]. rewrite H. destruct (l_reg l n) as [cid|]; [|reflexivity]. eexists. split; [reflexivity|]. cbn [set_cache set_view l_edges l_src l_reg l_views].
  repeat split.
  - intros w Hw. apply updn_other. exact Hw.
  - exists (mkv cid a (st_dump (c_store (l_caches l cid))) [] true). split; [apply updn_same|reflexivity].
Qed.
Lemma step_poll shape l v x : l_views l v = Some x -> v_alive x = true ->
  exists l', step shape l (OPoll v) = (l', Given (v_queue x)) /\ l_edges l' = l_edges l /\ l_src l' = l_src l /\ l_reg l' = l_reg l /\
      (forall w, w <> v -> l_views l' w = l_views l w) /\ attached l' v.
Proof.
  intros H Hx. cbn [step]. rewrite H, Hx. eexists. split; [reflexivity|]. repeat split.
  - intros w Hw. apply updn_other. exact Hw.
  - eexists. split; [apply updn_same|reflexivity].
Qed.
Lemma step_leave shape l v x : l_views l v = Some x -> v_alive x = true ->
  exists l', step shape l (OLeave v) = (l', Done) /\ l_edges l' = l_edges l /\ l_src l' = l_src l /\ l_reg l' = l_reg l /\
      (forall w, w <> v -> l_views l' w = l_views l w) /\ exists y, l_views l' v = Some y.
Proof.
  intros H Hx. cbn [step]. rewrite H, Hx. eexists. split; [reflexivity|]. repeat split.
  - intros w Hw. cbn [set_view set_cache l_views]. apply updn_other. exact Hw.
  - eexists. cbn [set_view set_cache l_views]. apply updn_same.
Qed.
(** One player moves. *)
Lemma winv_move s v l' p : winv s -> l_edges l' = l_edges (w_live s) -> l_src l' = l_src (w_live s) -> (forall w, w <> v -> l_views l' w = l_views (w_live s) w) ->
  owns p = None -> pinv (w_now s) l' v p -> winv (mkw l' (w_now s) (t_set (w_thr s) v p)).
Proof.
  intros [I1 I2 I3 I4] E0 E1 E2 Ho Hp. split; cbn [w_live w_now w_thr].
  - eapply einv_ext; eauto.
  - intros w q H. rewrite t_get_set in H. destruct (Nat.eqb w v) eqn:E.
    + apply Nat.eqb_eq in E. subst w. injection H as <-. exact Hp.
    + apply Nat.eqb_neq in E. eapply pinv_other; [exact E1|apply E2; exact E|]. auto.
  - intros w x H. rewrite t_get_set. destruct (Nat.eqb w v) eqn:E; [discriminate|]. apply Nat.eqb_neq in E. rewrite E2 in H by exact E. eapply I3. exact H.
  - apply own_set; [exact I4|]. rewrite Ho. discriminate.
Qed.

Lemma W_pos : 0 < WAIT_US. Proof. reflexivity. Qed.
Lemma winv_enter shape s v a n t : winv s -> t <= w_now s <= t + WAIT_US -> l_views (w_live s) v = None -> winv (enter shape s v a n t).
Proof.
  intros I Ht Hv. pose proof (step_play shape (w_live s) v a n Hv) as H. unfold enter. destruct (l_reg (w_live s) n).
  - destruct H as (l' & -> & E1 & E2 & _ & E3 & Ha). apply winv_move; auto.
  - rewrite H. apply winv_move; auto. cbn [pinv]. split; [exact Ht|]. split; [lia|]. left. auto.
Qed.
Lemma winv_take shape s v : winv s -> attached (w_live s) v -> winv (take_queue shape s v).
Proof.
  intros I (x & Hx & Ha). destruct (step_poll shape (w_live s) v x Hx Ha) as (l' & E & E1 & E2 & _ & E3 & Hq). unfold take_queue. rewrite E.
  apply winv_move; auto.
Qed.
Lemma winv_leave shape s v t c : winv s -> attached (w_live s) v -> t <= w_now s <= t + WAIT_US ->
  (c = ERROR_SOCKET_TIMEOUT /\ w_now s = t + WAIT_US \/ c <> 0 /\ w_now s = t) -> winv (leave shape s v t c).
Proof.
  intros I (x & Hx & Ha) Ht Hc. destruct (step_leave shape (w_live s) v x Hx Ha) as (l' & E & E1 & E2 & _ & E3 & Hy). unfold leave. rewrite E.
  apply winv_move; auto. cbn [pinv]. split; [exact Ht|]. split; [lia|]. right. auto.
Qed.
Lemma winv_unref shape s v n o t : winv s -> t_get (w_thr s) v = Some (PWoken n o t) ->
  winv (unref shape s v n o t) /\ t_get (w_thr (unref shape s v n o t)) v = Some (PWoken n None t).
Proof.
  intros I G. pose proof I as [I1 I2 I3 I4]. destruct o as [e|]; cbn [unref]; [|split; [exact I|exact G]].
  split; [|cbn [w_thr]; rewrite t_get_set, Nat.eqb_refl; reflexivity].
  pose proof (step_effect shape (w_live s) (OEdgeDrop e) I1) as Hf. pose proof (drop_keeps_views shape (w_live s) e) as Ev.
  split; cbn [w_live w_now w_thr].
  - apply einv_step. exact I1.
  - intros w q H. rewrite t_get_set in H. destruct (Nat.eqb_spec w v) as [->|Hw].
    + injection H as <-. pose proof (I2 v _ G) as (P1 & P2 & _). cbn [pinv]. split; [exact P1|]. rewrite Ev. split; [exact P2|discriminate].
    + eapply pinv_src; [exact Hf|rewrite Ev; reflexivity|discriminate| |apply I2; exact H].
      intros e' E [= ->]. apply Hw. eapply I4; [exact H|exact G|exact E|reflexivity].
  - intros w x H. rewrite Ev in H. rewrite t_get_set. destruct (Nat.eqb w v); [discriminate|]. eapply I3. exact H.
  - apply own_set; [exact I4|discriminate].
Qed.

Lemma winv_step shape s o : winv s -> winv (wstep shape s o).
Proof.
  intros I. pose proof I as [I1 I2 I3 I4]. pose proof W_pos as HW. destruct o as [o|v a n edge i st|v a|v c|t]; cbn [wstep].
  - destruct (by_source o) eqn:Hb; [|exact I]. pose proof (einv_step shape (w_live s) o I1) as He.
    pose proof (step_effect shape (w_live s) o I1) as Hf.
    pose proof (fun v => source_views shape (w_live s) o v Hb) as Hg. pose proof (source_noput_views shape (w_live s) o) as Hnp.
    destruct (step shape (w_live s) o) as [l [| | |]] eqn:Es; try exact I. cbn [fst] in *.
    assert (Hnd : forall e, o <> OEdgeDrop e) by (intros e ->; discriminate Hb).
    assert (Hkeep : forall v p, t_get (w_thr s) v = Some p -> (forall i k q, o <> OPut i k q) -> (forall n e b t, p = PEdge n e b t -> o <> OEnd e) -> pinv (w_now s) l v p).
    { intros v p Hp Hno Hne. eapply pinv_src; [exact Hf|apply (Hnp v Hb Hno)|exact Hne|intros e _; apply Hnd|apply I2; exact Hp]. }
    destruct o as [i n|i n|i n|i|i k q|i|i|u a n|u|u|u]; try discriminate Hb.
    + split; cbn [w_live w_now w_thr]; [exact He| | |exact I4].
      * intros v p Hp. apply Hkeep; [exact Hp| |]; discriminate.
      * intros v x Hx. rewrite (Hnp v Hb) in Hx by discriminate. eauto.
    + split; cbn [w_live w_now w_thr]; [exact He| | |exact I4].
      * intros v p Hp. apply Hkeep; [exact Hp| |]; discriminate.
      * intros v x Hx. rewrite (Hnp v Hb) in Hx by discriminate. eauto.
    + split; cbn [w_live w_now w_thr]; [exact He| | |apply own_map; [apply wake_owns|exact I4]].
      * intros v p Hp. rewrite t_get_map in Hp. destruct (t_get (w_thr s) v) as [p0|] eqn:E0; [|discriminate]. injection Hp as <-.
        assert (K : pinv (w_now s) l v p0) by (apply Hkeep; [exact E0| |]; discriminate).
        destruct p0 as [n e b t|n o' t| | | |]; cbn [wake_edge]; try exact K. destruct (Nat.eqb e i); [|exact K]. cbn [pinv] in *.
        destruct K as (K1 & K2 & K3). split; [exact K1|]. split; [exact K3|]. intros e' H. destruct b; [|discriminate]. injection H as <-. left. exact K2.
      * intros v x Hx. rewrite (Hnp v Hb) in Hx by discriminate. rewrite t_get_map. destruct (t_get (w_thr s) v) eqn:E0; [discriminate|]. exfalso. eapply I3; eauto.
    + split; cbn [w_live w_now w_thr]; [exact He| | |apply own_map; [apply data_owns|exact I4]].
      * intros v p Hp. rewrite t_get_map in Hp. destruct (t_get (w_thr s) v) as [p0|] eqn:E0; [|discriminate]. injection Hp as <-.
        pose proof (I2 v p0 E0) as P. specialize (Hg v). destruct p0 as [n e b t|n o' t| |since|since|since at_ code]; cbn [wake_data pinv] in *.
        -- destruct P as (P1 & P2 & P3). split; [exact P1|]. split; [eapply pulls_stay; [exact Hf|discriminate|exact P2]|]. eapply grew_none; eauto.
        -- destruct P as (P1 & P2 & P3). split; [exact P1|]. split; [eapply grew_none; eauto|]. intros e E. eapply tied_stay; [exact Hf|discriminate|auto].
        -- eapply grew_attached; eauto.
        -- destruct P as (P1 & P2 & P3). pose proof (grew_attached _ _ _ Hg P2) as Ha. destruct (queue_of l v) eqn:Eq; cbn [pinv]; rewrite ?Eq.
           { auto. } { split; [exact P1|]. split; [exact Ha|]. left. discriminate. }
        -- destruct P as (P1 & P2 & P3). split; [exact P1|]. split; [eapply grew_attached; eauto|]. destruct P3 as [P3|P3]; [left; eapply grew_queue; eauto|right; exact P3].
        -- destruct P as (P1 & P2 & P3). split; [exact P1|]. split; [exact P2|]. destruct P3 as [(P3 & P4)|(P3 & P4)]; [left; split; [exact P3|eapply grew_none; eauto]|right; split; [eapply grew_some; eauto|exact P4]].
      * intros v x Hx. rewrite t_get_map. destruct (t_get (w_thr s) v) eqn:E0; [discriminate|]. exfalso. specialize (Hg v). rewrite Hx in Hg.
        destruct (l_views (w_live s) v) eqn:Ev; [eapply I3; eauto|destruct Hg].
    + assert (J : winv (mkw l (w_now s) (t_map (wake_edge i) (w_thr s)))).
      { split; cbn [w_live w_now w_thr]; [exact He| | |apply own_map; [apply wake_owns|exact I4]].
        - intros v p Hp. rewrite t_get_map in Hp. destruct (t_get (w_thr s) v) as [p0|] eqn:E0; [|discriminate]. injection Hp as <-.
          destruct p0 as [n e b t|n o' t| | | |]; cbn [wake_edge]; try (apply Hkeep; [exact E0|discriminate|discriminate]).
          destruct (Nat.eqb_spec e i) as [->|Ei].
          + pose proof (I2 v _ E0) as P. cbn [pinv] in *. destruct P as (P1 & P2 & P3). split; [exact P1|]. rewrite (Hnp v Hb) by discriminate. split; [exact P3|].
            intros e' H. destruct b; [|discriminate]. injection H as <-. eapply tied_stay; [exact Hf|discriminate|left; exact P2].
          + apply Hkeep; [exact E0|discriminate|]. intros n' e' b' t' [= <- <- <- <-] [= H]. congruence.
        - intros v x Hx. rewrite (Hnp v Hb) in Hx by discriminate. rewrite t_get_map. destruct (t_get (w_thr s) v) eqn:E0; [discriminate|]. exfalso. eapply I3; eauto. }
      destruct (held (w_thr s) i) eqn:Eh; [exact J|]. destruct J as [J1 J2 J3 J4]. cbn [w_live w_now w_thr] in *.
      pose proof (step_effect shape l (OEdgeDrop i) J1) as Hf'. pose proof (drop_keeps_views shape l i) as Ev.
      split; cbn [w_live w_now w_thr].
      * apply einv_step. exact J1.
      * intros v p Hp. eapply pinv_src; [exact Hf'|rewrite Ev; reflexivity|discriminate| |apply J2; exact Hp].
        intros e E [= ->]. rewrite t_get_map in Hp. destruct (t_get (w_thr s) v) as [p0|] eqn:E0; [|discriminate]. injection Hp as <-.
        rewrite wake_owns in E. eapply held_not; eauto.
      * intros v x Hx. rewrite Ev in Hx. eapply J3. exact Hx.
      * exact J4.
  - destruct (t_get (w_thr s) v) eqn:Et; [exact I|]. destruct (l_views (w_live s) v) eqn:Ev; [exact I|].
    destruct (l_reg (w_live s) n) eqn:Er.
    + apply winv_enter; [exact I|lia|exact Ev].
    + assert (Hend : winv (mkw (w_live s) (w_now s) (t_set (w_thr s) v (PEnd (w_now s) (w_now s) ERROR_STREAM_SOURCE_NOT_EXITS)))).
      { apply winv_move; auto. cbn [pinv]. split; [lia|]. split; [lia|]. left. auto. }
      destruct edge; [|exact Hend]. destruct (l_edges (w_live s) n) as [e|] eqn:Ee.
      * apply winv_move; auto. cbn [pinv]. split; [lia|]. split; [apply I1; exact Ee|exact Ev].
      * destruct st; [|exact Hend]. pose proof (einv_step shape (w_live s) (OEdgeStart i n) I1) as He.
        pose proof (step_effect shape (w_live s) (OEdgeStart i n) I1) as Hf.
        cbn [step] in *. destruct (l_src (w_live s) i) eqn:Ei; [exact I|]. rewrite Er, Ee in *. cbn [fst] in He, Hf.
        split; cbn [w_live w_now w_thr].
        { exact He. }
        { intros w q H. rewrite t_get_set in H. destruct (Nat.eqb_spec w v) as [->|Hw].
          - injection H as <-. cbn [pinv]. split; [lia|]. split; [left; apply updn_same|exact Ev].
          - eapply pinv_src; [exact Hf|reflexivity|discriminate|discriminate|apply I2; exact H]. }
        { intros w x H. rewrite t_get_set. destruct (Nat.eqb w v); [discriminate|]. eapply I3. exact H. }
        { apply own_set; [exact I4|]. intros e w q [= <-] Hw Hq Ho. destruct (owns_tied _ _ _ _ _ (I2 w q Hq) Ho) as (m & T).
          apply tied_some in T. contradiction. }
  - destruct (t_get (w_thr s) v) as [[n e b t|n o' t| |t|t|]|] eqn:Et; try exact I.
    + destruct (winv_unref shape s v n o' t I Et) as (J & G). assert (P := wi_thr _ J v _ G). destruct P as (P1 & P2 & _). apply winv_enter; auto.
    + pose proof (I2 v _ Et) as (P1 & P2 & P3). destruct (queue_of (w_live s) v) eqn:Eq.
      * destruct P3 as [P3|P3]; [congruence|]. apply winv_leave; auto.
      * apply winv_take; auto.
  - destruct (t_get (w_thr s) v) as [[]|] eqn:Et; try exact I. pose proof (I2 v _ Et) as P. cbn [pinv] in P.
    destruct (c =? 0) eqn:Ec.
    + destruct (queue_of (w_live s) v) eqn:Eq; [|apply winv_take; auto]. apply winv_move; auto. cbn [pinv]. split; [lia|auto].
    + apply winv_leave; auto; [lia|]. right. apply Z.eqb_neq in Ec. auto.
  - destruct ((w_now s <=? t) && forallb (fun x => negb (runnable (snd x)) && not_over t (snd x)) (w_thr s)) eqn:E; [|exact I].
    apply andb_true_iff in E. destruct E as (E1 & E2). apply Z.leb_le in E1. rewrite forallb_forall in E2.
    split; cbn [w_live w_now w_thr]; [exact I1| | |apply own_map; [apply expire_owns|exact I4]].
    + intros v p Hp. rewrite t_get_map in Hp. destruct (t_get (w_thr s) v) as [p0|] eqn:E0; [|discriminate]. injection Hp as <-.
      pose proof (I2 v p0 E0) as P. apply t_get_in in E0. apply E2 in E0. cbn [snd] in E0. apply andb_true_iff in E0. destruct E0 as (R & N).
      destruct p0 as [n e b since|n o' since| |since|since|since at_ code]; cbn [expire pinv runnable not_over] in *; try discriminate R.
      * apply Z.leb_le in N. destruct P as (P1 & P2 & P3). destruct (since + WAIT_US <=? t); cbn [pinv].
        { split; [lia|]. split; [exact P3|]. intros e' H. destruct b; [|discriminate]. injection H as <-. left. exact P2. }
        { split; [lia|auto]. }
      * exact P.
      * apply Z.leb_le in N. destruct P as (P1 & P2 & P3). destruct (since + WAIT_US <=? t) eqn:El; cbn [pinv].
        { apply Z.leb_le in El. split; [lia|]. split; [exact P2|]. right. lia. }
        { split; [lia|auto]. }
      * destruct P as (P1 & P2 & P3). split; [exact P1|]. split; [lia|exact P3].
    + intros v x Hx. rewrite t_get_map. destruct (t_get (w_thr s) v) eqn:E0; [discriminate|]. exfalso. eapply I3; eauto.
Qed.
Lemma winv_run shape os s : winv s -> winv (wrun shape s os).
Proof. revert s. induction os as [|o os IH]; intros s I; [exact I|]. cbn [wrun]. apply IH, winv_step, I. Qed.

(** ** The events behind a timed run *)
Lemma quiet_same shape l o l' x : step shape l o = (l', x) -> (forall ps, x <> Given ps) -> x <> Done -> l' = l.
Proof.
  intros H H1 H2. destruct o as [i name|i name|i name|i|i k p|i|i|v addr name|v|v|v]; cbn [step] in H;
    repeat match type of H with
    | context [match ?e with _ => _ end] => destruct e
    end; try (injection H as <- <-); try congruence; exfalso; eapply H1; reflexivity.
Qed.
Lemma fst_events shape os : forall s h h', fst (play_events shape s h os) = fst (play_events shape s h' os).
Proof.
  induction os as [|o os IH]; intros s h h'; [reflexivity|]. cbn [play_events]. destruct (step shape s o). apply IH.
Qed.
(** Dropping the reference of a player that goes on. *)
Lemma unref_facts shape s v n o t : w_now (unref shape s v n o t) = w_now s /\ l_views (w_live (unref shape s v n o t)) = l_views (w_live s) /\
  (forall w, w <> v -> t_get (w_thr (unref shape s v n o t)) w = t_get (w_thr s) w).
Proof.
  destruct o as [e|]; cbn [unref w_now w_live w_thr]; [|auto]. rewrite drop_keeps_views. split; [reflexivity|]. split; [reflexivity|].
  intros w H. rewrite t_get_set. apply Nat.eqb_neq in H. rewrite H. reflexivity.
Qed.
Lemma drop_free shape l e n : l_reg l n = None -> l_reg (fst (step shape l (OEdgeDrop e))) n = None.
Proof.
  intros H. assert (G : forall ks s, l_reg (fold_left (fun (a : live) (k : list Z) => set_edge a k None) ks s) = l_reg s).
  { induction ks as [|k ks IH]; intros s; [reflexivity|]. cbn [fold_left]. rewrite IH. reflexivity. }
  cbn [step]. destruct (l_src l e) as [[m|d ks|b ks|]|]; try exact H. cbn [fst set_src l_reg]. rewrite G. destruct b; [|exact H].
  destruct (l_reg (fold_left release ks l) n) eqn:E; [|reflexivity]. apply fold_release_reg in E. congruence.
Qed.
Lemma drop_idle shape l i : (forall b ks, l_src l i <> Some (SLeft b ks)) -> fst (step shape l (OEdgeDrop i)) = l.
Proof. intros H. cbn [step]. destruct (l_src l i) as [[m|d ks|b ks|]|]; try reflexivity. exfalso. eapply H. reflexivity. Qed.
Lemma unref_live shape s v n o t : w_live (unref shape s v n o t) = fst (play_events shape (w_live s) [] (match o with Some e => [OEdgeDrop e] | None => [] end)).
Proof. destruct o as [e|]; [|reflexivity]. cbn [unref w_live play_events]. destruct (step shape (w_live s) (OEdgeDrop e)); reflexivity. Qed.
Lemma live_step shape s o : winv s -> w_live (wstep shape s o) = fst (play_events shape (w_live s) [] (seen_as s o)).
Proof.
  intros I. pose proof I as [I1 I2 I3 I4]. destruct o as [o|v a n edge i st|v a|v c|t]; cbn [wstep seen_as].
  - destruct (by_source o) eqn:Hb; [|reflexivity].
    destruct (match o with OEnd _ => true | _ => false end) eqn:Ho.
    + destruct o as [| | | | |i| | | | |]; try discriminate. cbn [play_events]. destruct (step shape (w_live s) (OEnd i)) as [l x] eqn:Es.
      assert (K : match l_src (w_live s) i with Some (SOpening _) | Some (SActive _ _) => x = Done | _ => x = Ignored /\ l = w_live s end).
      { cbn [step] in Es. destruct (l_src (w_live s) i) as [[m|[] ks|b ks|]|]; injection Es as <- <-; auto. }
      assert (D : fst (play_events shape l [(OEnd i, Done)] (if held (w_thr s) i then [] else [OEdgeDrop i])) =
                  (if held (w_thr s) i then l else fst (step shape l (OEdgeDrop i)))).
      { destruct (held (w_thr s) i); [reflexivity|]. cbn [play_events]. destruct (step shape l (OEdgeDrop i)); reflexivity. }
      destruct (l_src (w_live s) i) as [[m|e ks|b ks|]|]; try (destruct K as (-> & ->); reflexivity); subst x; rewrite D; destruct (held _ _); reflexivity.
    + cbn [play_events]. destruct (step shape (w_live s) o) as [l x] eqn:Es.
      replace (match o with OEnd i => match l_src (w_live s) i with Some (SOpening _) | Some (SActive _ _) => if held (w_thr s) i then [] else [OEdgeDrop i] | _ => [] end | _ => [] end)
        with (@nil op) by (destruct o; try reflexivity; discriminate Ho). cbn [play_events fst].
      destruct x; try (symmetry; eapply quiet_same; [exact Es|discriminate|discriminate]).
      * destruct o; try reflexivity; discriminate Ho.
      * exfalso. destruct o; try discriminate Hb; cbn [step] in Es; repeat match type of Es with context [match ?e with _ => _ end] => destruct e end; discriminate.
  - destruct (t_get (w_thr s) v); [reflexivity|]. destruct (l_views (w_live s) v) eqn:Ev; [reflexivity|].
    destruct (l_reg (w_live s) n) eqn:Er.
    + pose proof (step_play shape (w_live s) v a n Ev) as H. rewrite Er in H. destruct H as (l' & E & _). unfold enter. cbn [play_events]. rewrite E. reflexivity.
    + destruct (l_edges (w_live s) n) eqn:Ee; [destruct edge; reflexivity|]. destruct edge; [|reflexivity]. destruct st; [|reflexivity].
      cbn [andb play_events]. destruct (step shape (w_live s) (OEdgeStart i n)) as [l x] eqn:Es. cbn [fst].
      destruct x; try reflexivity; symmetry; eapply quiet_same; try exact Es; try discriminate.
      exfalso. cbn [step] in Es. repeat match type of Es with context [match ?e with _ => _ end] => destruct e end; discriminate.
  - destruct (t_get (w_thr s) v) as [[n e b t|n o' t| |t|t|]|] eqn:Et; try reflexivity.
    + destruct (winv_unref shape s v n o' t I Et) as (J & G). pose proof (wi_thr _ J v _ G) as (_ & Ev & _). cbn [pinv] in Ev.
      rewrite play_events_app. pose proof (unref_live shape s v n o' t) as U. destruct (play_events shape (w_live s) [] _) as [l h]. cbn [fst] in U.
      set (s1 := unref shape s v n o' t) in *. rewrite <- U. pose proof (step_play shape (w_live s1) v a n Ev) as H. unfold enter. cbn [play_events].
      destruct (l_reg (w_live s1) n).
      * destruct H as (l' & E & _). rewrite E. reflexivity.
      * rewrite H. reflexivity.
    + destruct (queue_of (w_live s) v); cbn [play_events]; unfold leave, take_queue.
      * destruct (step shape (w_live s) (OLeave v)); reflexivity.
      * destruct (step shape (w_live s) (OPoll v)); reflexivity.
  - destruct (t_get (w_thr s) v) as [[]|] eqn:Et; try reflexivity. destruct (c =? 0).
    + destruct (queue_of (w_live s) v); cbn [play_events]; unfold take_queue; [reflexivity|]. destruct (step shape (w_live s) (OPoll v)); reflexivity.
    + cbn [play_events]. unfold leave. destruct (step shape (w_live s) (OLeave v)); reflexivity.
  - destruct ((w_now s <=? t) && _); reflexivity.
Qed.
Lemma live_run shape os s : winv s -> w_live (wrun shape s os) = fst (play_events shape (w_live s) [] (live_events shape s os)).
Proof.
  revert s. induction os as [|o os IH]; intros s I; [reflexivity|]. cbn [wrun live_events].
  rewrite IH by (apply winv_step, I). rewrite play_events_app, live_step by exact I.
  destruct (play_events shape (w_live s) [] (seen_as s o)) as [l h] eqn:E. cbn [fst]. apply fst_events.
Qed.
Lemma timed_live shape os s h : timed shape os s h -> play_events shape live0 [] (live_events shape w0 os) = (w_live s, h).
Proof.
  intros (_ & _ & <- & <-). rewrite (live_run shape os w0 winv0). cbn [w0 w_live]. destruct (play_events shape live0 [] _); reflexivity.
Qed.
Lemma timed_winv shape os s h : timed shape os s h -> winv s.
Proof. intros (_ & _ & <- & _). apply winv_run, winv0. Qed.
Lemma timed_inv shape os s h : timed shape os s h -> exists gc, sinv gc (w_live s) h /\ vinv gc (w_live s) h.
Proof.
  intros H. pose proof (timed_live _ _ _ _ H) as E. destruct H as (Hk & He & _ & _). destruct inv0 as (A & B).
  eapply play_events_inv; [exact Hk|exact He|exact tinv0|exact A|exact B|exact E].
Qed.

(** Who has left is no longer alive. *)
Definition gone_inv (l : live) (h : hist) : Prop := forall v, In (OLeave v, Done) h -> exists x, l_views l v = Some x /\ v_alive x = false.
Lemma gone_step shape l h o l' x : step shape l o = (l', x) -> gone_inv l h -> gone_inv l' ((o, x) :: h).
Proof.
  intros Hs H v [E|Hin].
  - injection E as -> ->. cbn [step] in Hs. destruct (l_views l v) as [y|]; [|discriminate]. destruct (v_alive y); [|discriminate].
    injection Hs as <-. eexists. cbn [set_view set_cache l_views]. split; [apply updn_same|reflexivity].
  - destruct (H v Hin) as (y & Ey & Ha).
    assert (Hput : grew (l_views l v) (l_views l' v) -> exists x0, l_views l' v = Some x0 /\ v_alive x0 = false).
    { intros G. rewrite Ey in G. destruct (l_views l' v) as [z|]; [|destruct G]. destruct G as (G & _). exists z. split; [reflexivity|congruence]. }
    destruct (by_source o) eqn:Hb.
    + apply Hput. pose proof (source_views shape l o v Hb) as G. rewrite Hs in G. exact G.
    + destruct o as [i name|i name|i name|i|i k p|i|i|u addr name|u|u|u]; try discriminate Hb.
      3,4,5,6: cbn [step] in Hs.
      * cbn [step] in Hs. destruct (l_src l i); [injection Hs as <- _; eauto|]. destruct (l_reg l name), (l_edges l name); injection Hs as <- _; eauto.
      * pose proof (drop_keeps_views shape l i) as D. rewrite Hs in D. cbn [fst] in D. rewrite D. eauto.
      * destruct (l_views l u) eqn:Eu; [injection Hs as <- _; eauto|]. destruct (l_reg l name); injection Hs as <- _; [|eauto].
        cbn [set_view set_cache l_views]. destruct (Nat.eq_dec v u) as [->|Hn]; [congruence|]. rewrite updn_other by exact Hn. eauto.
      * destruct (l_views l u) as [z|] eqn:Eu; [|injection Hs as <- _; eauto]. destruct (v_alive z) eqn:Ez; injection Hs as <- _; [|eauto].
        cbn [set_view set_cache l_views]. destruct (Nat.eq_dec v u) as [->|Hn]; [congruence|]. rewrite updn_other by exact Hn. eauto.
      * destruct (l_views l u) as [z|] eqn:Eu; [|injection Hs as <- _; eauto]. destruct (v_alive z) eqn:Ez; injection Hs as <- _; [|eauto].
        cbn [set_view set_cache l_views]. destruct (Nat.eq_dec v u) as [->|Hn]; [congruence|]. rewrite updn_other by exact Hn. eauto.
      * destruct (l_views l u) as [z|] eqn:Eu; [|injection Hs as <- _; eauto]. destruct (v_alive z) eqn:Ez; injection Hs as <- _; [|eauto].
        cbn [set_view set_cache l_views]. destruct (Nat.eq_dec v u) as [->|Hn]; [congruence|]. rewrite updn_other by exact Hn. eauto.
Qed.
Lemma gone_run shape os : forall l h l' h', play_events shape l h os = (l', h') -> gone_inv l h -> gone_inv l' h'.
Proof.
  induction os as [|o os IH]; intros l h l' h' H G; cbn [play_events] in H; [injection H as <- <-; exact G|].
  destruct (step shape l o) as [l1 x] eqn:E. eapply IH; [exact H|]. eapply gone_step; eauto.
Qed.
Lemma nplays_split v h : nplays v h = 1%nat -> exists post pre a name, h = post ++ (OPlay v a name, Done) :: pre.
Proof.
  induction h as [|[o x] h IH]; [discriminate|]. cbn [nplays]. intros H.
  assert (K : nplays v h = 1%nat -> exists post pre a name, (o, x) :: h = post ++ (OPlay v a name, Done) :: pre).
  { intros H1. destruct (IH H1) as (post & pre & a & name & ->). exists ((o, x) :: post), pre, a, name. reflexivity. }
  destruct o; try (apply K; exact H). destruct x; try (apply K; exact H).
  destruct (Nat.eqb v v0) eqn:E; [|apply K; exact H]. apply Nat.eqb_eq in E. subst v0. exists [], h, addr, name. reflexivity.
Qed.

(** ** Idle players *)
Lemma idle_everything shape os s h v t : timed shape os s h -> t_get (w_thr s) v = Some (PIdle t) ->
  exists post pre a name i k, h = post ++ (OPlay v a name, Done) :: pre /\ owner name pre = Some (i, k) /\
    given v post = snapshot k (puts i k pre) ++ puts i k post.
Proof.
  intros T Hv. pose proof (wi_thr _ (timed_winv _ _ _ _ T) v _ Hv) as (_ & (x & Ex & Ha) & Hq).
  destruct (timed_inv _ _ _ _ T) as (gc & _ & V). destruct (v_some _ _ _ V v x Ex) as (Hn & _).
  destruct (nplays_split v h Hn) as (post & pre & a & name & ->).
  pose proof (timed_live _ _ _ _ T) as E. pose proof T as (Hk & He & _).
  assert (Hl : ~ In (OLeave v, Done) post).
  { intros Hin. assert (G : gone_inv (w_live s) (post ++ (OPlay v a name, Done) :: pre)).
    { eapply gone_run; [exact E|]. intros w []. }
    destruct (G v (in_or_app _ _ _ (or_introl Hin))) as (y & Ey & Hy). congruence. }
  destruct (viewer_stream shape _ _ post pre v a name Hk He E Hl) as (i & k & y & Ho & Ey & _ & Hg).
  exists post, pre, a, name, i, k. split; [reflexivity|]. split; [exact Ho|].
  unfold queue_of in Hq. rewrite Ey in Hq. rewrite Hq, app_nil_r in Hg. exact Hg.
Qed.

(** ** Time *)
Lemma wstep_now shape s o : w_now (wstep shape s o) = w_now s \/
  (exists t, o = WTime t /\ w_now s <= t /\ w_now (wstep shape s o) = t /\ forall v p, t_get (w_thr s) v = Some p -> runnable p = false).
Proof.
  destruct o as [o|v a n edge i st|v a|v c|t]; cbn [wstep].
  - left. destruct (by_source o); [|reflexivity]. destruct (step shape (w_live s) o) as [l []]; reflexivity.
  - left. unfold enter.
    repeat match goal with |- context [match ?e with _ => _ end] => destruct e end; reflexivity.
  - left. unfold enter, leave, take_queue. pose proof (fun n o t => proj1 (unref_facts shape s v n o t)) as U.
    repeat match goal with |- context [match ?e with _ => _ end] => destruct e end; try reflexivity; apply U.
  - left. unfold leave, take_queue.
    repeat match goal with |- context [match ?e with _ => _ end] => destruct e end; reflexivity.
  - destruct ((w_now s <=? t) && forallb (fun x => negb (runnable (snd x)) && not_over t (snd x)) (w_thr s)) eqn:E; [|left; reflexivity].
    apply andb_true_iff in E. destruct E as (E1 & E2). apply Z.leb_le in E1. rewrite forallb_forall in E2. right. exists t.
    repeat split; [exact E1|]. intros v p Hp. apply t_get_in, E2 in Hp. apply andb_true_iff in Hp. destruct Hp as (Hp & _).
    apply negb_true_iff in Hp. exact Hp.
Qed.
Lemma wstep_mono shape s o : w_now s <= w_now (wstep shape s o).
Proof. destruct (wstep_now shape s o) as [->|(t & _ & H & -> & _)]; lia. Qed.
Lemma wrun_mono shape os s : w_now s <= w_now (wrun shape s os).
Proof. revert s. induction os as [|o os IH]; intros s; [reflexivity|]. cbn [wrun]. specialize (IH (wstep shape s o)). pose proof (wstep_mono shape s o). lia. Qed.

(** What an event can do to the thread of [v]. *)
Lemma move_other s l' w p v : v <> w -> t_get (w_thr (mkw l' (w_now s) (t_set (w_thr s) w p))) v = t_get (w_thr s) v.
Proof. intros H. cbn [w_thr]. rewrite t_get_set. apply Nat.eqb_neq in H. rewrite H. reflexivity. Qed.

(** Viewers are never forgotten. *)
Lemma views_stay shape s o v : winv s -> (exists x, l_views (w_live s) v = Some x) -> exists x, l_views (w_live (wstep shape s o)) v = Some x.
Proof.
  intros I (x & Hx). rewrite live_step by exact I. generalize (seen_as s o). intros os. clear I o. generalize (w_live s) x Hx. clear s x Hx.
  generalize (@nil (op * out)). induction os as [|o os IH]; intros h l x Hx; [exists x; exact Hx|]. cbn [play_events].
  assert (K : exists y, l_views (fst (step shape l o)) v = Some y).
  { destruct (by_source o) eqn:Hb.
    - pose proof (source_views shape l o v Hb) as G. rewrite Hx in G. destruct (l_views (fst (step shape l o)) v); [eauto|destruct G].
    - destruct o as [i name|i name|i name|i|i k p|i|i|u addr name|u|u|u]; try discriminate Hb; [| |cbn [step]..].
      + cbn [step]. destruct (l_src l i); [eauto|]. destruct (l_reg l name), (l_edges l name); eauto.
      + rewrite drop_keeps_views. eauto.
      + destruct (l_views l u) eqn:Eu; [eauto|]. destruct (l_reg l name); [|eauto]. cbn [fst set_view set_cache l_views].
        unfold updn. destruct (Nat.eqb v u); eauto.
      + destruct (l_views l u) as [z|]; [|eauto]. destruct (v_alive z); [|eauto]. cbn [fst set_view set_cache l_views]. unfold updn. destruct (Nat.eqb v u); eauto.
      + destruct (l_views l u) as [z|]; [|eauto]. destruct (v_alive z); [|eauto]. cbn [fst set_view set_cache l_views]. unfold updn. destruct (Nat.eqb v u); eauto.
      + destruct (l_views l u) as [z|]; [|eauto]. destruct (v_alive z); [|eauto]. cbn [fst set_view set_cache l_views]. unfold updn. destruct (Nat.eqb v u); eauto. }
  destruct (step shape l o) as [l1 y1]. destruct K as (y & Hy). eapply IH. exact Hy.
Qed.
(** Names stay free until a source begins. *)
Lemma reg_free shape s o n : winv s -> no_source o -> l_reg (w_live s) n = None -> l_reg (w_live (wstep shape s o)) n = None.
Proof.
  intros I Hno Hn. rewrite live_step by exact I.
  assert (K : forall l o', l_reg l n = None -> by_source o' = false -> l_reg (fst (step shape l o')) n = None).
  { intros l o' Hl Hb. destruct o' as [i name|i name|i name|i|i k p|i|i|u addr name|u|u|u]; try discriminate Hb; [|apply drop_free; exact Hl|..]; cbn [step];
      repeat match goal with |- context [match ?e with _ => _ end] => destruct e end; exact Hl. }
  assert (F : Forall (fun o' => by_source o' = false) (seen_as s o)).
  { destruct o as [o|v a m edge i st|v a|v c|t]; [destruct Hno| | | |]; cbn [seen_as];
      repeat match goal with |- context [match ?e with _ => _ end] => destruct e end; cbn [app]; repeat constructor. }
  revert F Hn. generalize (seen_as s o) (w_live s) (@nil (op * out)). clear -K. intros os. induction os as [|o os IH]; intros l h F Hn; [exact Hn|].
  inversion F as [|? ? F1 F2]; subst. cbn [play_events]. pose proof (K l o Hn F1) as H. destruct (step shape l o) as [l1 x]. apply IH; assumption.
Qed.
Lemma enter_other shape s w a n o t u v : v <> w -> t_get (w_thr (enter shape (unref shape s w n o u) w a n t)) v = t_get (w_thr s) v.
Proof.
  intros H. destruct (unref_facts shape s w n o u) as (_ & _ & F). unfold enter.
  destruct (step shape _ _) as [l []]; cbn [w_thr]; rewrite ?t_get_set; apply Nat.eqb_neq in H as H'; rewrite ?H'; apply F; exact H.
Qed.
(** A woken player stays woken until it runs. *)
Lemma woken_step shape s o v n r t : t_get (w_thr s) v = Some (PWoken n r t) ->
  t_get (w_thr (wstep shape s o)) v = Some (PWoken n r t) /\ w_now (wstep shape s o) = w_now s \/
  (exists a, o = WRun v a) /\ w_now (wstep shape s o) = w_now s.
Proof.
  intros Hv. assert (Hnow : w_now (wstep shape s o) = w_now s).
  { destruct (wstep_now shape s o) as [E|(t' & _ & _ & _ & H)]; [exact E|]. specialize (H v _ Hv). discriminate. }
  destruct (match o with WRun w _ => Nat.eqb w v | _ => false end) eqn:Eo.
  - destruct o; try discriminate. apply Nat.eqb_eq in Eo. subst. right. split; [eauto|exact Hnow].
  - left. split; [|exact Hnow]. assert (M : forall l w p, v <> w -> t_get (w_thr (mkw l (w_now s) (t_set (w_thr s) w p))) v = Some (PWoken n r t)).
    { intros l w p H. rewrite move_other by exact H. exact Hv. }
    destruct o as [o|w a m edge i st|w a|w c|t']; cbn [wstep].
    + destruct (by_source o); [|exact Hv]. destruct (step shape (w_live s) o) as [l []]; try exact Hv.
      destruct o; try destruct (held _ _); cbn [w_thr]; try exact Hv; rewrite t_get_map, Hv; reflexivity.
    + destruct (t_get (w_thr s) w) eqn:Ew; [exact Hv|]. assert (Hne : v <> w) by (intros ->; congruence).
      unfold enter. repeat match goal with |- context [match ?e with _ => _ end] => destruct e end; try exact Hv; apply M, Hne.
    + apply Nat.eqb_neq in Eo. assert (Hne : v <> w) by congruence. destruct (t_get (w_thr s) w) as [[n' e' b' u|n' o' u| |u|u|]|] eqn:Ew; try exact Hv;
        [rewrite enter_other by exact Hne; exact Hv|]; unfold leave, take_queue; repeat match goal with |- context [match ?e with _ => _ end] => destruct e end; try exact Hv; apply M, Hne.
    + destruct (t_get (w_thr s) w) as [[]|] eqn:Ew; try exact Hv. assert (Hne : v <> w) by (intros ->; congruence).
      unfold leave, take_queue; repeat match goal with |- context [match ?e with _ => _ end] => destruct e end; try exact Hv; apply M, Hne.
    + destruct ((w_now s <=? t') && _); [|exact Hv]. cbn [w_thr]. rewrite t_get_map, Hv. reflexivity.
Qed.
Lemma ended_step shape s o v t a c : t_get (w_thr s) v = Some (PEnd t a c) -> t_get (w_thr (wstep shape s o)) v = Some (PEnd t a c).
Proof.
  intros Hv. assert (M : forall l w p, v <> w -> t_get (w_thr (mkw l (w_now s) (t_set (w_thr s) w p))) v = Some (PEnd t a c)).
  { intros l w p H. rewrite move_other by exact H. exact Hv. }
  destruct o as [o|w a' m edge i st|w a'|w c'|t']; cbn [wstep].
  - destruct (by_source o); [|exact Hv]. destruct (step shape (w_live s) o) as [l []]; try exact Hv.
    destruct o; try destruct (held _ _); cbn [w_thr]; try exact Hv; rewrite t_get_map, Hv; reflexivity.
  - destruct (t_get (w_thr s) w) eqn:Ew; [exact Hv|]. assert (Hne : v <> w) by (intros ->; congruence).
    unfold enter. repeat match goal with |- context [match ?e with _ => _ end] => destruct e end; try exact Hv; apply M, Hne.
  - destruct (t_get (w_thr s) w) as [[n' e' b' u|n' o' u| |u|u|]|] eqn:Ew; try exact Hv; (assert (Hne : v <> w) by (intros ->; congruence));
      [rewrite enter_other by exact Hne; exact Hv|]; unfold leave, take_queue; repeat match goal with |- context [match ?e with _ => _ end] => destruct e end; try exact Hv; apply M, Hne.
  - destruct (t_get (w_thr s) w) as [[]|] eqn:Ew; try exact Hv. assert (Hne : v <> w) by (intros ->; congruence).
    unfold leave, take_queue; repeat match goal with |- context [match ?e with _ => _ end] => destruct e end; try exact Hv; apply M, Hne.
  - destruct ((w_now s <=? t') && _); [|exact Hv]. cbn [w_thr]. rewrite t_get_map, Hv. reflexivity.
Qed.

(** What a woken player finds. *)
Lemma woken_run shape s v n r t a : winv s -> t_get (w_thr s) v = Some (PWoken n r t) -> let s1 := unref shape s v n r t in let s' := wstep shape s (WRun v a) in
  match l_reg (w_live s1) n with
  | Some _ => exists x, l_views (w_live s') v = Some x
  | None => t_get (w_thr s') v = Some (PEnd t (w_now s) ERROR_STREAM_SOURCE_NOT_EXITS)
  end.
Proof.
  intros I Kw s1 s'. destruct (winv_unref shape s v n r t I Kw) as (J & G). pose proof (wi_thr _ J v _ G) as (_ & Hv & _).
  pose proof (step_play shape (w_live s1) v a n Hv) as H. unfold s'. cbn [wstep]. rewrite Kw. unfold enter. fold s1. destruct (l_reg (w_live s1) n).
  - destruct H as (l' & -> & _ & _ & _ & _ & (x & Hx & _)). exists x. exact Hx.
  - rewrite H. cbn [w_thr]. rewrite t_get_set, Nat.eqb_refl. destruct (unref_facts shape s v n r t) as (E & _). fold s1 in E. rewrite E. reflexivity.
Qed.
Lemma unref_free shape s v n r t m : l_reg (w_live s) m = None -> l_reg (w_live (unref shape s v n r t)) m = None.
Proof. intros H. destruct r as [e|]; [|exact H]. cbn [unref w_live]. apply drop_free. exact H. Qed.
Lemma woken_refused shape rs : forall s v n r t now, winv s -> Forall no_source rs ->
  (t_get (w_thr s) v = Some (PWoken n r t) /\ w_now s = now /\ l_reg (w_live s) n = None \/ t_get (w_thr s) v = Some (PEnd t now ERROR_STREAM_SOURCE_NOT_EXITS)) ->
  now < w_now (wrun shape s rs) -> t_get (w_thr (wrun shape s rs)) v = Some (PEnd t now ERROR_STREAM_SOURCE_NOT_EXITS).
Proof.
  induction rs as [|o rs IH]; intros s v n r t now I Hf K Hlt; cbn [wrun] in *.
  - destruct K as [(_ & E & _)|K]; [lia|exact K].
  - inversion Hf as [|? ? H1 H2]; subst. apply (IH (wstep shape s o) v n r t now); [apply winv_step, I|exact H2| |exact Hlt].
    destruct K as [(Kw & Kn & Kr)|K]; [|right; apply ended_step; assumption].
    destruct (woken_step shape s o v n r t Kw) as [(A & B)|((a & ->) & B)].
    + left. split; [exact A|]. split; [congruence|]. apply reg_free; assumption.
    + right. pose proof (woken_run shape s v n r t a I Kw) as H. cbv zeta in H. rewrite unref_free in H by exact Kr. rewrite Kn in H. exact H.
Qed.

(** ** From the arrival on *)
Lemma edge_wait_step shape s o v n e r t : t_get (w_thr s) v = Some (PEdge n e r t) ->
  t_get (w_thr (wstep shape s o)) v = Some (PEdge n e r t) \/ exists r', t_get (w_thr (wstep shape s o)) v = Some (PWoken n r' t).
Proof.
  intros Hv. assert (M : forall l w p, v <> w -> t_get (w_thr (mkw l (w_now s) (t_set (w_thr s) w p))) v = Some (PEdge n e r t)).
  { intros l w p H. rewrite move_other by exact H. exact Hv. }
  destruct o as [o|w a' m edge i st|w a'|w c'|t']; cbn [wstep].
  - destruct (by_source o); [|auto]. destruct (step shape (w_live s) o) as [l []]; auto.
    destruct o; try destruct (held _ _); cbn [w_thr]; auto; rewrite t_get_map, Hv; cbn [option_map wake_edge wake_data]; auto; destruct (Nat.eqb e i); eauto.
  - left. destruct (t_get (w_thr s) w) eqn:Ew; [exact Hv|]. assert (Hne : v <> w) by (intros ->; congruence).
    unfold enter. repeat match goal with |- context [match ?x with _ => _ end] => destruct x end; try exact Hv; apply M, Hne.
  - left. destruct (t_get (w_thr s) w) as [[n' e' b' u|n' o' u| |u|u|]|] eqn:Ew; try exact Hv; (assert (Hne : v <> w) by (intros ->; congruence));
      [rewrite enter_other by exact Hne; exact Hv|]; unfold leave, take_queue; repeat match goal with |- context [match ?x with _ => _ end] => destruct x end; try exact Hv; apply M, Hne.
  - left. destruct (t_get (w_thr s) w) as [[]|] eqn:Ew; try exact Hv. assert (Hne : v <> w) by (intros ->; congruence).
    unfold leave, take_queue; repeat match goal with |- context [match ?x with _ => _ end] => destruct x end; try exact Hv; apply M, Hne.
  - destruct ((w_now s <=? t') && _); [|auto]. cbn [w_thr]. rewrite t_get_map, Hv. cbn [option_map expire]. destruct (t + WAIT_US <=? t'); eauto.
Qed.
Lemma edge_wait_stays shape s o v n e r t : t_get (w_thr s) v = Some (PEdge n e r t) ->
  o <> WSrc (OEdgeOpen e) -> o <> WSrc (OEnd e) -> w_now (wstep shape s o) < t + WAIT_US ->
  t_get (w_thr (wstep shape s o)) v = Some (PEdge n e r t).
Proof.
  intros Hv Ho He. assert (M : forall l w p, v <> w -> t_get (w_thr (mkw l (w_now s) (t_set (w_thr s) w p))) v = Some (PEdge n e r t)).
  { intros l w p H. rewrite move_other by exact H. exact Hv. }
  destruct o as [o|w a' m edge i st|w a'|w c'|t']; cbn [wstep].
  - intros _. destruct (by_source o); [|exact Hv]. destruct (step shape (w_live s) o) as [l []]; try exact Hv.
    destruct o; try destruct (held _ _); cbn [w_thr]; try exact Hv; rewrite t_get_map, Hv; cbn [option_map wake_edge wake_data];
      try reflexivity; destruct (Nat.eqb_spec e i); try reflexivity; subst; exfalso; auto.
  - intros _. destruct (t_get (w_thr s) w) eqn:Ew; [exact Hv|]. assert (Hne : v <> w) by (intros ->; congruence).
    unfold enter. repeat match goal with |- context [match ?x with _ => _ end] => destruct x end; try exact Hv; apply M, Hne.
  - intros _. destruct (t_get (w_thr s) w) as [[n' e' b' u|n' o' u| |u|u|]|] eqn:Ew; try exact Hv; (assert (Hne : v <> w) by (intros ->; congruence));
      [rewrite enter_other by exact Hne; exact Hv|]; unfold leave, take_queue; repeat match goal with |- context [match ?x with _ => _ end] => destruct x end; try exact Hv; apply M, Hne.
  - intros _. destruct (t_get (w_thr s) w) as [[]|] eqn:Ew; try exact Hv. assert (Hne : v <> w) by (intros ->; congruence).
    unfold leave, take_queue; repeat match goal with |- context [match ?x with _ => _ end] => destruct x end; try exact Hv; apply M, Hne.
  - destruct ((w_now s <=? t') && _); [|intros _; exact Hv]. cbn [w_thr w_now]. intros Hn. rewrite t_get_map, Hv.
    cbn [option_map expire]. replace (t + WAIT_US <=? t') with false by lia. reflexivity.
Qed.
(** Where a player is that has not been attached yet. *)
Definition asking (s : wst) (v : nat) (n : list Z) (t : Z) : Prop :=
  (exists e r, t_get (w_thr s) v = Some (PEdge n e r t)) \/ (exists r, t_get (w_thr s) v = Some (PWoken n r t)) \/
  (exists a, t_get (w_thr s) v = Some (PEnd t a ERROR_STREAM_SOURCE_NOT_EXITS)) \/ exists x, l_views (w_live s) v = Some x.
Lemma asking_step shape s o v n t : winv s -> asking s v n t -> asking (wstep shape s o) v n t.
Proof.
  intros I [(e & r & H)|[(r & H)|[(a & H)|H]]].
  - destruct (edge_wait_step shape s o v n e r t H) as [K|K]; [left; eauto|right; left; exact K].
  - destruct (woken_step shape s o v n r t H) as [(K & _)|((a & ->) & _)]; [right; left; eauto|].
    pose proof (woken_run shape s v n r t a I H) as K. cbv zeta in K. right; right. destruct (l_reg _ n); [right; exact K|left; eauto].
  - right; right; left. exists a. apply ended_step. exact H.
  - right; right; right. apply views_stay; assumption.
Qed.
Lemma asking_run shape os : forall s v n t, winv s -> asking s v n t -> asking (wrun shape s os) v n t.
Proof. induction os as [|o os IH]; intros s v n t I H; [exact H|]. cbn [wrun]. apply IH; [apply winv_step, I|apply asking_step; assumption]. Qed.
Lemma arrive_asks shape s v a n edge i st : t_get (w_thr s) v = None -> l_views (w_live s) v = None -> l_src (w_live s) i = None ->
  asking (wstep shape s (WArrive v a n edge i st)) v n (w_now s).
Proof.
  intros H1 H2 H3. cbn [wstep]. rewrite H1, H2. destruct (l_reg (w_live s) n) eqn:Er.
  - right; right; right. pose proof (step_play shape (w_live s) v a n H2) as K. rewrite Er in K. destruct K as (l' & E & _ & _ & _ & _ & (x & Hx & _)).
    unfold enter. rewrite E. exists x. exact Hx.
  - assert (K : asking (mkw (w_live s) (w_now s) (t_set (w_thr s) v (PEnd (w_now s) (w_now s) ERROR_STREAM_SOURCE_NOT_EXITS))) v n (w_now s)).
    { right; right; left. exists (w_now s). cbn [w_thr]. rewrite t_get_set, Nat.eqb_refl. reflexivity. }
    destruct edge; [|exact K]. destruct (l_edges (w_live s) n) eqn:Ee.
    + left. eexists _, _. cbn [w_thr]. rewrite t_get_set, Nat.eqb_refl. reflexivity.
    + destruct st; [|exact K]. cbn [step]. rewrite H3, Er, Ee. left. eexists _, _. cbn [w_thr]. rewrite t_get_set, Nat.eqb_refl. reflexivity.
Qed.

(** ** Silence *)
Lemma publish_other es p v : forall vs, ~ In v (map fst es) -> fst (publish_to vs es p) v = vs v.
Proof.
  induction es as [|e es IH]; intros vs H; [reflexivity|]. cbn [publish_to map In] in *. destruct (is_alive vs (fst e)).
  - specialize (IH (deliver vs (fst e) p)). destruct (publish_to (deliver vs (fst e) p) es p). cbn [fst] in *.
    rewrite IH by tauto. unfold deliver. destruct (vs (fst e)); [|reflexivity]. apply updn_other. intros ->. tauto.
  - apply IH. tauto.
Qed.
Lemma live_events_app shape a : forall s b, live_events shape s (a ++ b) = live_events shape s a ++ live_events shape (wrun shape s a) b.
Proof. induction a as [|o a IH]; intros s b; [reflexivity|]. cbn [app live_events wrun]. rewrite IH, app_assoc. reflexivity. Qed.
Lemma wrun_app shape a : forall s b, wrun shape s (a ++ b) = wrun shape (wrun shape s a) b.
Proof. induction a as [|o a IH]; intros s b; [reflexivity|]. cbn [app wrun]. apply IH. Qed.
Lemma timed_prefix shape a b s h : timed shape (a ++ b) s h -> exists h', timed shape a (wrun shape w0 a) h'.
Proof.
  intros (A & B & _). rewrite live_events_app in B. apply env_ok_app in B. eexists. split; [exact A|]. split; [apply B|]. split; reflexivity.
Qed.
(** A silent player: idle, or about to give up, or gone. *)
Definition starving (s : wst) (v : nat) (t : Z) : Prop :=
  queue_of (w_live s) v = [] /\ (t_get (w_thr s) v = Some (PIdle t) \/ t_get (w_thr s) v = Some (PReady t)) \/
  t_get (w_thr s) v = Some (PEnd t (t + WAIT_US) ERROR_SOCKET_TIMEOUT).
Lemma starving_step shape os s h o v t : timed shape os s h ->
  (forall x, l_views (w_live s) v = Some x -> put_into (w_live s) o <> Some (v_cid x)) -> starving s v t -> starving (wstep shape s o) v t.
Proof.
  intros T Hp [(Hq & Hs)|H]; [|right; apply ended_step; exact H].
  pose proof (timed_winv _ _ _ _ T) as I.
  assert (Hat : attached (w_live s) v) by (destruct Hs as [Hs|Hs]; apply (wi_thr _ I) in Hs; apply Hs).
  destruct Hat as (x & Ex & Ha).
  assert (M : forall l w p, v <> w -> l_views l v = l_views (w_live s) v -> starving (mkw l (w_now s) (t_set (w_thr s) w p)) v t).
  { intros l w p H E. left. split; [unfold queue_of in *; cbn [w_live]; rewrite E; exact Hq|]. rewrite move_other by exact H. exact Hs. }
  assert (Hold : starving s v t) by (left; split; assumption).
  destruct o as [o|w a' m edge i st|w a'|w c'|t']; cbn [wstep].
  - destruct (by_source o) eqn:Hb; [|exact Hold].
    assert (Hv : l_views (fst (step shape (w_live s) o)) v = l_views (w_live s) v).
    { destruct o as [i n|i n|i n|i|i k p|i|i|u a n|u|u|u]; try discriminate Hb; try (apply source_noput_views; [reflexivity|discriminate]).
      cbn [step]. cbn [put_into] in Hp. destruct (l_src (w_live s) i) as [[n|e ks|b ks|]|]; try reflexivity.
      destruct (nth_error ks k) as [[n c]|] eqn:Ek; [|reflexivity]. cbn [fst option_map snd] in *.
      unfold cache_put. pose proof (publish_other (inorder (c_subs (l_caches (w_live s) c))) p v (l_views (w_live s))) as K.
      destruct (publish_to (l_views (w_live s)) (inorder (c_subs (l_caches (w_live s) c))) p) as [vs es]. cbn [fst l_views] in *. apply K.
      intros Hin. apply in_map_iff in Hin. destruct Hin as (en & E1 & E2). destruct (timed_inv _ _ _ _ T) as (gc & _ & V).
      destruct (v_in _ _ _ V c en E2) as (y & Ey & _ & Ec & _). rewrite E1 in Ey. apply (Hp y Ey). congruence. }
    destruct (step shape (w_live s) o) as [l y]. cbn [fst] in Hv. destruct y; try exact Hold.
    assert (Hq' : queue_of l v = []) by (unfold queue_of in *; rewrite Hv; exact Hq).
    assert (Hd : forall i, queue_of (fst (step shape l (OEdgeDrop i))) v = []) by (intros i; unfold queue_of; rewrite drop_keeps_views; exact Hq').
    destruct o; try destruct (held _ _); left; cbn [w_live w_thr]; (split; [first [exact Hq'|apply Hd]|]); try exact Hs; rewrite t_get_map; destruct Hs as [->| ->]; cbn [option_map wake_edge wake_data]; rewrite ?Hq'; auto.
  - destruct (t_get (w_thr s) w) eqn:Ew; [exact Hold|]. assert (Hne : v <> w) by (intros ->; destruct Hs; congruence).
    destruct (l_views (w_live s) w) eqn:Ewv; [exact Hold|]. destruct (l_reg (w_live s) m) eqn:Er.
    + pose proof (step_play shape (w_live s) w a' m Ewv) as K. rewrite Er in K. destruct K as (l' & E & _ & _ & _ & E3 & _). unfold enter. rewrite E. apply M; auto.
    + destruct edge; [|apply M; auto]. destruct (l_edges (w_live s) m) eqn:Ee; [apply M; auto|]. destruct st; [|apply M; auto].
      cbn [step]. destruct (l_src (w_live s) i); [exact Hold|]. rewrite Er, Ee. apply M; auto.
  - destruct (Nat.eq_dec v w) as [<-|Hne].
    + destruct Hs as [Hs|Hs]; rewrite Hs; [left; auto|]. rewrite Hq. right. unfold leave. cbn [w_thr]. rewrite t_get_set, Nat.eqb_refl.
      pose proof (wi_thr _ I v _ Hs) as (_ & _ & [K|K]); [congruence|]. rewrite K. reflexivity.
    + destruct (t_get (w_thr s) w) as [[n' e' b' u|n' o' u| |u|u|]|] eqn:Ew; try exact Hold.
      * left. split; [|rewrite enter_other by exact Hne; exact Hs]. destruct (winv_unref shape s w n' o' u I Ew) as (J & G).
        pose proof (wi_thr _ J w _ G) as (_ & Hwv & _). destruct (unref_facts shape s w n' o' u) as (_ & F & _). set (s1 := unref shape s w n' o' u) in *.
        pose proof (step_play shape (w_live s1) w a' n' Hwv) as K. unfold enter, queue_of in *. destruct (l_reg (w_live s1) n').
        { destruct K as (l' & E & _ & _ & _ & E3 & _). rewrite E. cbn [w_live]. rewrite E3, F by exact Hne. exact Hq. }
        { rewrite K. cbn [w_live]. rewrite F. exact Hq. }
      * pose proof (wi_thr _ I w _ Ew) as (_ & (y & Ey & Hy) & _). destruct (queue_of (w_live s) w).
        { destruct (step_leave shape (w_live s) w y Ey Hy) as (l' & E & _ & _ & _ & E3 & _). unfold leave. rewrite E. apply M; auto. }
        { destruct (step_poll shape (w_live s) w y Ey Hy) as (l' & E & _ & _ & _ & E3 & _). unfold take_queue. rewrite E. apply M; auto. }
  - destruct (t_get (w_thr s) w) as [[]|] eqn:Ew; try exact Hold. assert (Hne : v <> w) by (intros ->; destruct Hs; congruence).
    pose proof (wi_thr _ I w _ Ew) as (y & Ey & Hy). destruct (c' =? 0).
    + destruct (queue_of (w_live s) w); [apply M; auto|]. destruct (step_poll shape (w_live s) w y Ey Hy) as (l' & E & _ & _ & _ & E3 & _). unfold take_queue. rewrite E. apply M; auto.
    + destruct (step_leave shape (w_live s) w y Ey Hy) as (l' & E & _ & _ & _ & E3 & _). unfold leave. rewrite E. apply M; auto.
  - destruct ((w_now s <=? t') && _); [|exact Hold]. left. cbn [w_live w_thr]. split; [exact Hq|]. rewrite t_get_map.
    destruct Hs as [->| ->]; cbn [option_map expire]; [destruct (t + WAIT_US <=? t'); auto|auto].
Qed.
Lemma starving_run shape rs : forall os s h v t, timed shape (os ++ rs) s h -> starving (wrun shape w0 os) v t -> silent shape v (wrun shape w0 os) rs ->
  starving s v t.
Proof.
  induction rs as [|o rs IH]; intros os s h v t T K Hs.
  - rewrite app_nil_r in T. destruct T as (_ & _ & <- & _). exact K.
  - cbn [silent] in Hs. destruct Hs as (Hs1 & Hs2). destruct (timed_prefix shape os (o :: rs) s h T) as (h' & T').
    replace (os ++ o :: rs) with ((os ++ [o]) ++ rs) in T by (rewrite <- app_assoc; reflexivity).
    apply (IH (os ++ [o]) s h v t T); rewrite wrun_app; cbn [wrun]; [|exact Hs2]. eapply starving_step; [exact T'|exact Hs1|exact K].
Qed.

(** ** The clock goes on *)
Definition t_keys (l : threads) : list nat := map fst l.
Lemma keys_set l v x : incl (t_keys (t_set l v x)) (v :: t_keys l) /\ (NoDup (t_keys l) -> NoDup (t_keys (t_set l v x))).
Proof.
  unfold t_keys. induction l as [|[u p] l [A B]]; cbn [t_set map fst].
  - split; [intros a H; exact H|]. intros _. constructor; [intros []|constructor].
  - destruct (Nat.eqb v u) eqn:E; cbn [map fst].
    + split; [intros a H; right; exact H|tauto].
    + split.
      * intros a [->|H]; [right; left; reflexivity|]. destruct (A a H) as [->|H']; [left; reflexivity|right; right; exact H'].
      * intros N. inversion N as [|? ? N1 N2]; subst. constructor; [|exact (B N2)]. intros H. destruct (A u H) as [->|H']; [|exact (N1 H')].
        rewrite Nat.eqb_refl in E. discriminate.
Qed.
Lemma keys_map f l : t_keys (t_map f l) = t_keys l.
Proof. unfold t_keys, t_map. rewrite map_map. reflexivity. Qed.
Lemma in_t_get l v p : NoDup (t_keys l) -> In (v, p) l -> t_get l v = Some p.
Proof.
  induction l as [|[u q] l IH]; intros N H; [destruct H|]. cbn [t_get]. cbn in N. inversion N as [|? ? N1 N2]; subst. destruct H as [H|H].
  - injection H as -> ->. rewrite Nat.eqb_refl. reflexivity.
  - destruct (Nat.eqb v u) eqn:E; [|exact (IH N2 H)]. apply Nat.eqb_eq in E. subst u. exfalso. apply N1.
    change (In (fst (v, p)) (map fst l)). apply in_map. exact H.
Qed.
Lemma keys_step shape s o : NoDup (t_keys (w_thr s)) -> NoDup (t_keys (w_thr (wstep shape s o))).
Proof.
  intros N. unfold wstep, enter, take_queue, leave, unref.
  repeat match goal with
  | |- context [match ?x with _ => _ end] => destruct x eqn:?
  end; cbn [w_thr]; rewrite ?keys_map; try exact N; repeat (apply (proj2 (keys_set _ _ _))); exact N.
Qed.
Lemma keys_run shape os : forall s, NoDup (t_keys (w_thr s)) -> NoDup (t_keys (w_thr (wrun shape s os))).
Proof. induction os as [|o os IH]; intros s N; [exact N|]. cbn [wrun]. apply IH, keys_step, N. Qed.

Definition waits (p : pstate) : bool := match p with PWriting | PEnd _ _ _ => false | _ => true end.
Definition nwait (l : threads) : nat := length (filter (fun x => waits (snd x)) l).
Lemma nwait_set l v p x : t_get l v = Some p -> waits p = true -> waits x = false -> (nwait (t_set l v x) < nwait l)%nat.
Proof.
  unfold nwait. intros G Hp Hx. induction l as [|[u q] l IH]; [discriminate|]. cbn [t_get] in G. cbn [t_set]. destruct (Nat.eqb v u).
  - injection G as ->. cbn [filter snd]. rewrite Hp, Hx. cbn [length]. lia.
  - cbn [filter snd]. specialize (IH G). destruct (waits q); cbn [length]; lia.
Qed.
Lemma nwait_same l v p x : t_get l v = Some p -> waits p = waits x -> nwait (t_set l v x) = nwait l.
Proof.
  unfold nwait. intros G Hp. induction l as [|[u q] l IH]; [discriminate|]. cbn [t_get] in G. cbn [t_set]. destruct (Nat.eqb v u).
  - injection G as ->. cbn [filter snd]. rewrite Hp. destruct (waits x); reflexivity.
  - cbn [filter snd]. specialize (IH G). destruct (waits q); cbn [length]; lia.
Qed.
Lemma nwait_map f l : (forall v p, waits (f v p) = waits p) -> nwait (t_map f l) = nwait l.
Proof.
  intros H. unfold nwait. induction l as [|[u q] l IH]; [reflexivity|]. cbn [t_map map filter fst snd]. rewrite H. fold (t_map f l).
  destruct (waits q); cbn [length]; lia.
Qed.
Lemma expire_waits now v p : waits (expire now v p) = waits p.
Proof. destruct p; cbn; try reflexivity; destruct (_ <=? _); reflexivity. Qed.

Lemma run_one shape s v p a : winv s -> t_get (w_thr s) v = Some p -> runnable p = true ->
  (nwait (w_thr (wstep shape s (WRun v a))) < nwait (w_thr s))%nat /\ w_now (wstep shape s (WRun v a)) = w_now s.
Proof.
  intros I G R. pose proof (wi_thr _ I v _ G) as P. cbn [wstep]. rewrite G. destruct p as [|n o t| | |t|]; try discriminate.
  - destruct (winv_unref shape s v n o t I G) as (J & G'). pose proof (wi_thr _ J v _ G') as (_ & Hv & _).
    assert (L : nwait (w_thr (unref shape s v n o t)) = nwait (w_thr s)) by (destruct o; [apply nwait_same with (p := PWoken n (Some n0) t); auto|reflexivity]).
    destruct (unref_facts shape s v n o t) as (E & _). set (s1 := unref shape s v n o t) in *.
    pose proof (step_play shape (w_live s1) v a n Hv) as H. unfold enter. rewrite <- L, <- E.
    destruct (l_reg (w_live s1) n); [destruct H as (l & E1 & _)|rename H into E1];
      rewrite E1; cbn [w_thr w_now]; (split; [|reflexivity]); eapply nwait_set; eauto.
  - destruct (queue_of (w_live s) v); unfold leave, take_queue; cbn [w_thr w_now]; (split; [|reflexivity]); eapply nwait_set; eauto.
Qed.

Definition deadline (p : pstate) : option Z := match p with PEdge _ _ _ t | PIdle t => Some (t + WAIT_US) | _ => None end.
Lemma earliest (l : threads) t : forallb (fun x => not_over t (snd x)) l = false ->
  exists v p d, In (v, p) l /\ deadline p = Some d /\ d < t /\ forallb (fun x => not_over d (snd x)) l = true.
Proof.
  induction l as [|[u q] l IH]; [discriminate|]. cbn [forallb snd]. intros H.
  destruct (forallb (fun x => not_over t (snd x)) l) eqn:E.
  - rewrite andb_true_r in H. assert (exists d, deadline q = Some d /\ d < t) as (d & D & Hd) by (destruct q; cbn in *; try discriminate; eexists; split; [reflexivity|lia|reflexivity|lia]).
    exists u, q, d. split; [left; reflexivity|]. split; [exact D|]. split; [exact Hd|]. apply andb_true_intro. split.
    + destruct q; cbn in *; try discriminate; injection D as <-; lia.
    + rewrite forallb_forall in *. intros x Hx. specialize (E x Hx). destruct (snd x); cbn in *; try reflexivity; lia.
  - destruct (IH eq_refl) as (v & p & d & Hin & D & Hd & F). destruct (not_over d q) eqn:Q.
    + exists v, p, d. split; [right; exact Hin|]. split; [exact D|]. split; [exact Hd|]. rewrite F, Q. reflexivity.
    + assert (exists d', deadline q = Some d' /\ d' < d) as (d' & D' & Hd') by (destruct q; cbn in *; try discriminate; eexists; split; [reflexivity|lia|reflexivity|lia]).
      exists u, q, d'. split; [left; reflexivity|]. split; [exact D'|]. split; [lia|]. apply andb_true_intro. split.
      * destruct q; cbn in *; try discriminate; injection D' as <-; lia.
      * rewrite forallb_forall in *. intros x Hx. specialize (F x Hx). destruct (snd x); cbn in *; try reflexivity; lia.
Qed.

Lemma clock_on shape (alloc : wst -> Z) t : forall n s, (nwait (w_thr s) <= n)%nat -> winv s -> NoDup (t_keys (w_thr s)) ->
  exists rs, Forall (fun o => match o with WRun _ _ | WTime _ => True | _ => False end) rs /\ t <= w_now (wrun shape s rs).
Proof.
  induction n as [n IHn] using lt_wf_ind. intros s Hn I N.
  destruct (existsb (fun x => runnable (snd x)) (w_thr s)) eqn:R.
  { apply existsb_exists in R. destruct R as ((v, p) & Hin & R). cbn [snd] in R. pose proof (in_t_get _ _ _ N Hin) as G.
    destruct (run_one shape s v p (alloc s) I G R) as (L & _).
    destruct (IHn (nwait (w_thr (wstep shape s (WRun v (alloc s))))) ltac:(lia) _ (le_n _) (winv_step _ _ _ I) (keys_step _ _ _ N)) as (rs & F & T).
    exists (WRun v (alloc s) :: rs). split; [constructor; [exact Logic.I|exact F]|exact T]. }
  assert (NR : forall d, forallb (fun x => negb (runnable (snd x)) && not_over d (snd x)) (w_thr s) = forallb (fun x => not_over d (snd x)) (w_thr s)).
  { intros d. clear -R. induction (w_thr s) as [|x l IH]; [reflexivity|]. cbn [existsb forallb] in *. apply orb_false_elim in R. destruct R as [R1 R2].
    rewrite R1, IH by exact R2. reflexivity. }
  destruct (Z.leb_spec t (w_now s)) as [Hle|Hlt].
  { exists []. split; [constructor|exact Hle]. }
  destruct (forallb (fun x => not_over t (snd x)) (w_thr s)) eqn:A.
  { exists [WTime t]. split; [repeat constructor|]. cbn [wrun wstep]. rewrite NR, A. destruct (w_now s <=? t) eqn:X; [|lia]. cbn [andb w_now]. lia. }
  destruct (earliest _ _ A) as (v & p & d & Hin & D & Hd & F).
  pose proof (in_t_get _ _ _ N Hin) as G. pose proof (wi_thr _ I v _ G) as P.
  assert (Hnow : w_now s <= d) by (destruct p; cbn in D; try discriminate; injection D as <-; cbn in P; lia).
  set (s1 := wstep shape s (WTime d)).
  assert (E1 : s1 = mkw (w_live s) d (t_map (expire d) (w_thr s))).
  { unfold s1. cbn [wstep]. rewrite NR, F. destruct (w_now s <=? d) eqn:X; [reflexivity|lia]. }
  assert (I1 : winv s1) by (apply winv_step; exact I).
  assert (N1 : NoDup (t_keys (w_thr s1))) by (apply keys_step; exact N).
  assert (G1 : exists q, t_get (w_thr s1) v = Some q /\ runnable q = true).
  { rewrite E1. cbn [w_thr]. rewrite t_get_map, G. cbn [option_map]. eexists. split; [reflexivity|].
    destruct p; cbn in D; try discriminate; injection D as <-; cbn [expire]; rewrite Z.leb_refl; reflexivity. }
  destruct G1 as (q & G1 & R1). destruct (run_one shape s1 v q (alloc s1) I1 G1 R1) as (L & _).
  assert (W1 : nwait (w_thr s1) = nwait (w_thr s)) by (rewrite E1; cbn [w_thr]; apply nwait_map, expire_waits).
  destruct (IHn (nwait (w_thr (wstep shape s1 (WRun v (alloc s1))))) ltac:(lia) _ (le_n _) (winv_step _ _ _ I1) (keys_step _ _ _ N1)) as (rs & F' & T).
  exists (WTime d :: WRun v (alloc s1) :: rs). split; [repeat (constructor; [exact Logic.I|]); exact F'|]. cbn [wrun]. fold s1. exact T.
Qed.

(** ** Calm runs: a reference dropped late takes nothing away *)
Definition cinv (l : live) (own : nat -> Prop) : Prop :=
  (forall i n, pulls l i n -> l_edges l n = Some i) /\
  (forall e b m, own e -> l_src l e = Some (SLeft b [m]) -> l_edges l m = None /\ (b = true -> l_reg l m = None)).
Definition clean (l : live) (own : nat -> Prop) (n : list Z) : Prop := forall e b, own e -> l_src l e <> Some (SLeft b [n]).
Definition cond (l : live) (own : nat -> Prop) (o : op) : Prop :=
  match o with
  | OPublish _ n | OEdgeStart _ n => clean l own n
  | OSrtPublish _ n => clean l own n /\ clean l own (TS_PREFIX ++ n)
  | OEdgeDrop i => own i
  | _ => True
  end.
Lemma cinv_ext l l' (own own' : nat -> Prop) : l_src l' = l_src l -> (forall m, l_edges l' m = l_edges l m) -> (forall m, l_reg l' m = l_reg l m) ->
  (forall e, own' e -> own e) -> cinv l own -> cinv l' own'.
Proof.
  intros E1 E2 E3 Ho (A & B). split.
  - intros i n. unfold pulls. rewrite E1, E2. apply A.
  - intros e b m H. rewrite E1, E2, E3. apply B. auto.
Qed.
(** What a drop leaves alone. *)
Lemma drop_same l l' own i : effect l l' (OEdgeDrop i) -> cinv l own -> own i ->
  (forall m, l_edges l' m = l_edges l m) /\ (forall m, l_reg l' m = l_reg l m).
Proof.
  intros Hf (A & B) Hi. inversion Hf as [o E Ee Er| | | | | | | |i' m b Ei E Ee Er]; subst.
  - rewrite Ee, Er. auto.
  - destruct (B i b m Hi Ei) as (B1 & B2). rewrite Ee, Er. split; intros k.
    + unfold updk. destruct (eqb_list k m) eqn:Ek; [|reflexivity]. apply eqb_list_spec in Ek. subst k. auto.
    + destruct b; [|reflexivity]. unfold updk. destruct (eqb_list k m) eqn:Ek; [|reflexivity]. apply eqb_list_spec in Ek. subst k. symmetry. auto.
Qed.
Lemma pulls_upd l l' i x j n : l_src l' = updn (l_src l) i (Some x) -> pulls l' j n -> j <> i /\ pulls l j n \/ j = i /\ (x = SOpening n \/ exists c, x = SActive true [(n, c)]).
Proof.
  unfold pulls. intros E. rewrite E. unfold updn. destruct (Nat.eqb_spec j i) as [->|H]; [|tauto]. intros [[= ->]|(c & [= ->])]; right; eauto.
Qed.
Lemma left_upd l l' i x e b m : l_src l' = updn (l_src l) i (Some x) -> l_src l' e = Some (SLeft b [m]) -> e <> i /\ l_src l e = Some (SLeft b [m]) \/ e = i /\ x = SLeft b [m].
Proof. intros E. rewrite E. unfold updn. destruct (Nat.eqb_spec e i) as [->|H]; [|auto]. intros [= ->]. auto. Qed.
Lemma cinv_effect l l' o own : effect l l' o -> cond l own o -> cinv l own -> cinv l' (fun e => own e \/ o = OEnd e /\ forall b ks, l_src l e <> Some (SLeft b ks)).
Proof.
  intros Hf Hc I. pose proof I as (A & B).
  destruct Hf as [o E Ee Er|i m c Ei E Ee Er|i m c d Ei E Ee Er|i m Ei Hn Hr E Ee Er|i m c Ei E Ee Er|i ks Ei E Ee Er|i m Ei E Ee Er|i m c Ei E Ee Er|i m b Ei E Ee Er];
    cbn [cond] in Hc.
  - split.
    + intros i n. unfold pulls. rewrite E, Ee. apply A.
    + intros e b m H He. rewrite E in He. rewrite Ee, Er. destruct H as [H|(_ & H)]; [eapply B; eauto|]. exfalso. eapply H. exact He.
  - split.
    + intros j n H. rewrite Ee. destruct (pulls_upd _ _ _ _ _ _ E H) as [(_ & K)|(_ & [K|(k & K)])]; [auto|discriminate..].
    + intros e b n [H|(H & _)] He; [|discriminate]. rewrite Ee, Er. destruct (left_upd _ _ _ _ _ _ _ E He) as [(_ & K)|(_ & K)]; [|discriminate].
      destruct (B e b n H K) as (B1 & B2). split; [exact B1|]. intros Hb. rewrite updk_other; [auto|]. intros ->. eapply Hc; eauto.
  - split.
    + intros j n H. rewrite Ee. destruct (pulls_upd _ _ _ _ _ _ E H) as [(_ & K)|(_ & [K|(k & K)])]; [auto|discriminate..].
    + intros e b n [H|(H & _)] He; [|discriminate]. rewrite Ee, Er. destruct (left_upd _ _ _ _ _ _ _ E He) as [(_ & K)|(_ & K)]; [|discriminate].
      destruct (B e b n H K) as (B1 & B2). split; [exact B1|]. intros Hb. destruct Hc as (C1 & C2).
      rewrite !updk_other; [auto| |]; intros ->; [eapply C1|eapply C2]; eauto.
  - split.
    + intros j n H. rewrite Ee. destruct (pulls_upd _ _ _ _ _ _ E H) as [(_ & K)|(-> & [K|(k & K)])]; [|injection K as ->; apply updk_same|discriminate].
      apply A in K. rewrite updk_other; [exact K|]. intros ->. congruence.
    + intros e b n [H|(H & _)] He; [|discriminate]. rewrite Ee, Er. destruct (left_upd _ _ _ _ _ _ _ E He) as [(_ & K)|(_ & K)]; [|discriminate].
      destruct (B e b n H K) as (B1 & B2). split; [|exact B2]. rewrite updk_other; [exact B1|]. intros ->. eapply Hc; eauto.
  - assert (Em : l_edges l m = Some i) by (apply A; left; exact Ei). split.
    + intros j n H. rewrite Ee. destruct (pulls_upd _ _ _ _ _ _ E H) as [(_ & K)|(-> & [K|(k & K)])]; [auto|discriminate|]. injection K as -> _. exact Em.
    + intros e b n [H|(H & _)] He; [|discriminate]. rewrite Ee, Er. destruct (left_upd _ _ _ _ _ _ _ E He) as [(_ & K)|(_ & K)]; [|discriminate].
      destruct (B e b n H K) as (B1 & B2). split; [exact B1|]. intros Hb. rewrite updk_other; [auto|]. intros ->. congruence.
  - split.
    + intros j n H. rewrite Ee. destruct (pulls_upd _ _ _ _ _ _ E H) as [(_ & K)|(_ & [K|(k & K)])]; [auto|discriminate..].
    + intros e b n H He. rewrite Ee. destruct (left_upd _ _ _ _ _ _ _ E He) as [(Hne & K)|(_ & K)]; [|discriminate]. destruct H as [H|([= H] & _)]; [|congruence].
      destruct (B e b n H K) as (B1 & B2). split; [exact B1|]. intros Hb. destruct (l_reg l' n) eqn:En; [|reflexivity]. apply Er in En. rewrite B2 in En by exact Hb. discriminate.
  - assert (Em : l_edges l m = Some i) by (apply A; left; exact Ei). split.
    + intros j n H. rewrite Ee. destruct (pulls_upd _ _ _ _ _ _ E H) as [(Hj & K)|(_ & [K|(k & K)])]; [|discriminate..].
      apply A in K. rewrite updk_other; [exact K|]. intros ->. congruence.
    + intros e b n H He. rewrite Ee, Er. destruct (left_upd _ _ _ _ _ _ _ E He) as [(Hne & K)|(_ & K)].
      * destruct H as [H|([= H] & _)]; [|congruence]. destruct (B e b n H K) as (B1 & B2). split; [|exact B2]. unfold updk. rewrite B1. destruct (eqb_list n m); reflexivity.
      * injection K as <- ->. split; [apply updk_same|discriminate].
  - assert (Em : l_edges l m = Some i) by (apply A; right; eauto). split.
    + intros j n H. rewrite Ee. destruct (pulls_upd _ _ _ _ _ _ E H) as [(Hj & K)|(_ & [K|(k & K)])]; [|discriminate..].
      apply A in K. rewrite updk_other; [exact K|]. intros ->. congruence.
    + intros e b n H He. rewrite Ee, Er. destruct (left_upd _ _ _ _ _ _ _ E He) as [(Hne & K)|(_ & K)].
      * destruct H as [H|([= H] & _)]; [|congruence]. destruct (B e b n H K) as (B1 & B2). split; [|intros Hb; specialize (B2 Hb)]; unfold updk; rewrite ?B1, ?B2; destruct (eqb_list n m); reflexivity.
      * injection K as <- ->. split; [|intros _]; apply updk_same.
  - pose proof (ef_drop l l' i m b Ei E Ee Er) as Hf. destruct (drop_same l l' own i Hf I Hc) as (D1 & D2). split.
    + intros j n H. rewrite D1. destruct (pulls_upd _ _ _ _ _ _ E H) as [(Hj & K)|(_ & [K|(k & K)])]; [auto|discriminate..].
    + intros e b' n [H|(H & _)] He; [|discriminate]. rewrite D1, D2. destruct (left_upd _ _ _ _ _ _ _ E He) as [(Hne & K)|(_ & K)]; [|discriminate]. eapply B; eauto.
Qed.

Definition owned (thr : threads) (e : nat) : Prop := exists v p, t_get thr v = Some p /\ owns p = Some e.
Definition cinvw (s : wst) : Prop := cinv (w_live s) (owned (w_thr s)).
Lemma owned_map f thr e : (forall v p, owns (f v p) = owns p) -> owned (t_map f thr) e -> owned thr e.
Proof.
  intros Hf (v & p & H & Ho). rewrite t_get_map in H. destruct (t_get thr v) as [q|] eqn:E; [|discriminate]. injection H as <-. rewrite Hf in Ho. exists v, q. auto.
Qed.
Lemma owned_set thr v p e : owned (t_set thr v p) e -> owned thr e \/ owns p = Some e.
Proof.
  intros (w & q & H & Ho). rewrite t_get_set in H. destruct (Nat.eqb w v); [injection H as <-; auto|]. left. exists w, q. auto.
Qed.
Lemma owned_pending s e b n : winv s -> owned (w_thr s) e -> l_src (w_live s) e = Some (SLeft b [n]) -> pending s n.
Proof.
  intros I (v & p & H & Ho) He. pose proof (wi_thr _ I v _ H) as P. destruct p as [m e' [] t|m o t| | | |]; try discriminate; cbn [owns pinv] in *.
  - injection Ho as ->. destruct P as (_ & P & _). unfold pulls in P. rewrite He in P. destruct P as [P|(c & P)]; discriminate.
  - subst o. destruct P as (_ & _ & P). specialize (P e eq_refl). unfold tied, pulls in P. rewrite He in P.
    destruct P as [[P|(c & P)]|(b' & P)]; [discriminate..|]. injection P as -> ->. exists v, e, t, b', [m]. auto.
Qed.
Lemma pending_clean s n : winv s -> ~ pending s n -> clean (w_live s) (owned (w_thr s)) n.
Proof. intros I H e b Ho He. apply H. eapply owned_pending; eauto. Qed.
Lemma unref_same shape s v n o t : winv s -> cinvw s -> t_get (w_thr s) v = Some (PWoken n o t) ->
  let s1 := unref shape s v n o t in
  cinvw s1 /\ (forall m, l_edges (w_live s1) m = l_edges (w_live s) m) /\ (forall m, l_reg (w_live s1) m = l_reg (w_live s) m).
Proof.
  intros I C G s1. destruct o as [e|]; [|auto]. unfold s1, cinvw. cbn [unref w_live w_thr].
  pose proof (step_effect shape (w_live s) (OEdgeDrop e) (wi_edges _ I)) as Hf. assert (He : owned (w_thr s) e) by (exists v, (PWoken n (Some e) t); auto).
  pose proof (drop_same _ _ _ _ Hf C He) as (D1 & D2). split; [|auto].
  eapply cinv_ext; [reflexivity|reflexivity|reflexivity| |eapply cinv_effect; [exact Hf|exact He|exact C]].
  intros j Hj. apply owned_set in Hj. destruct Hj as [Hj|Hj]; [left; exact Hj|discriminate].
Qed.
Lemma cinvw_move (shape : shaper) s v l p : cinvw s -> l_src l = l_src (w_live s) -> l_edges l = l_edges (w_live s) -> l_reg l = l_reg (w_live s) -> owns p = None ->
  cinvw (mkw l (w_now s) (t_set (w_thr s) v p)).
Proof.
  intros C E1 E2 E3 Ho. eapply cinv_ext; [exact E1|intros m; cbn [w_live]; rewrite E2; reflexivity|intros m; cbn [w_live]; rewrite E3; reflexivity| |exact C].
  intros e H. apply owned_set in H. destruct H as [H|H]; [exact H|congruence].
Qed.
(** What a player's event changes. *)
Lemma enter_facts shape s v a n t : winv s -> l_views (w_live s) v = None -> exists l p, enter shape s v a n t = mkw l (w_now s) (t_set (w_thr s) v p) /\
  l_src l = l_src (w_live s) /\ l_edges l = l_edges (w_live s) /\ l_reg l = l_reg (w_live s) /\ owns p = None.
Proof.
  intros I Hv. pose proof (step_play shape (w_live s) v a n Hv) as H. unfold enter. destruct (l_reg (w_live s) n).
  - destruct H as (l' & -> & E1 & E2 & E3 & _). exists l', PWriting. auto.
  - rewrite H. eexists _, _. split; [reflexivity|]. auto.
Qed.
Lemma take_facts shape s v : attached (w_live s) v -> exists l p, take_queue shape s v = mkw l (w_now s) (t_set (w_thr s) v p) /\
  l_src l = l_src (w_live s) /\ l_edges l = l_edges (w_live s) /\ l_reg l = l_reg (w_live s) /\ owns p = None.
Proof.
  intros (x & Hx & Ha). destruct (step_poll shape (w_live s) v x Hx Ha) as (l' & E & E1 & E2 & E3 & _). unfold take_queue. rewrite E. eexists _, _. split; [reflexivity|]. auto.
Qed.
Lemma leave_facts shape s v t c : attached (w_live s) v -> exists l p, leave shape s v t c = mkw l (w_now s) (t_set (w_thr s) v p) /\
  l_src l = l_src (w_live s) /\ l_edges l = l_edges (w_live s) /\ l_reg l = l_reg (w_live s) /\ owns p = None.
Proof.
  intros (x & Hx & Ha). destruct (step_leave shape (w_live s) v x Hx Ha) as (l' & E & E1 & E2 & E3 & _). unfold leave. rewrite E. eexists _, _. split; [reflexivity|]. auto.
Qed.
(** A step of a player: going on drops the reference and changes no name. *)
Lemma run_facts shape s v a : winv s -> cinvw s -> let s' := wstep shape s (WRun v a) in
  cinvw s' /\ (forall m, l_edges (w_live s') m = l_edges (w_live s) m) /\ (forall m, l_reg (w_live s') m = l_reg (w_live s) m).
Proof.
  intros I C s'. assert (Z : cinvw s /\ (forall m, l_edges (w_live s) m = l_edges (w_live s) m) /\ (forall m, l_reg (w_live s) m = l_reg (w_live s) m)) by auto.
  unfold s'. cbn [wstep]. destruct (t_get (w_thr s) v) as [[n e b t|n o t| |t|t|]|] eqn:Et; try exact Z.
  - destruct (winv_unref shape s v n o t I Et) as (J & G). pose proof (wi_thr _ J v _ G) as (_ & Hv & _).
    destruct (unref_same shape s v n o t I C Et) as (C1 & D1 & D2). set (s1 := unref shape s v n o t) in *.
    destruct (enter_facts shape s1 v a n t J Hv) as (l & p & -> & E1 & E2 & E3 & Ho). split; [apply (cinvw_move shape); auto|].
    cbn [w_live]. split; intros m; [rewrite E2; apply D1|rewrite E3; apply D2].
  - pose proof (wi_thr _ I v _ Et) as (_ & P & _). destruct (queue_of (w_live s) v).
    + destruct (leave_facts shape s v t ERROR_SOCKET_TIMEOUT P) as (l & p & -> & E1 & E2 & E3 & Ho). split; [apply (cinvw_move shape); auto|]. cbn [w_live]. rewrite E2, E3. auto.
    + destruct (take_facts shape s v P) as (l1 & p' & -> & E1 & E2 & E3 & Ho). split; [apply (cinvw_move shape); auto|]. cbn [w_live]. rewrite E2, E3. auto.
Qed.
Lemma cinvw0 : cinvw w0.
Proof. split; [intros i n [H|(c & H)]; discriminate|discriminate]. Qed.
Lemma cinvw_step shape s o : winv s -> calm1 s o -> cinvw s -> cinvw (wstep shape s o).
Proof.
  intros I Hc C. destruct o as [o|v a n edge i st|v a|v c|t]; cbn [wstep].
  - destruct (by_source o) eqn:Hb; [|exact C]. pose proof (step_effect shape (w_live s) o (wi_edges _ I)) as Hf.
    destruct (step shape (w_live s) o) as [l x] eqn:Es. cbn [fst] in Hf. destruct x; try exact C.
    assert (Hd : cond (w_live s) (owned (w_thr s)) o).
    { destruct o; try discriminate Hb; try exact Logic.I; cbn [calm1 cond] in *.
      - apply pending_clean; assumption.
      - destruct Hc. split; apply pending_clean; assumption. }
    pose proof (cinv_effect _ _ _ _ Hf Hd C) as C1. unfold cinvw. cbn [w_live w_thr].
    destruct (match o with OEnd _ => true | _ => false end) eqn:Ho.
    + destruct o as [| | | | |i| | | | |]; try discriminate. destruct (held (w_thr s) i) eqn:Eh; cbn [w_live w_thr].
      * eapply cinv_ext; [reflexivity|reflexivity|reflexivity| |exact C1]. intros e H. left. eapply owned_map; [|exact H]. intros; apply wake_owns.
      * pose proof (step_effect shape l (OEdgeDrop i) (einv_effect _ _ _ Hf (wi_edges _ I))) as Hf'.
        assert (Hi : forall b ks, l_src (w_live s) i <> Some (SLeft b ks)).
        { intros b ks E. cbn [step] in Es. rewrite E in Es. discriminate. }
        eapply cinv_ext; [reflexivity|reflexivity|reflexivity| |eapply cinv_effect; [exact Hf'| |exact C1]].
        { intros e H. left. left. eapply owned_map; [|exact H]. intros; apply wake_owns. }
        cbn [cond]. right. auto.
    + destruct o; try discriminate Ho; cbn [w_live w_thr]; (eapply cinv_ext; [reflexivity|reflexivity|reflexivity| |exact C1]); intros e H; left; try exact H;
        (eapply owned_map; [|exact H]); intros; first [apply wake_owns|apply data_owns].
  - cbn [calm1] in Hc. destruct (t_get (w_thr s) v) eqn:Et; [exact C|]. destruct (l_views (w_live s) v) eqn:Ev; [exact C|].
    destruct (l_reg (w_live s) n) eqn:Er.
    + destruct (enter_facts shape s v a n (w_now s) I Ev) as (l & p & -> & E1 & E2 & E3 & Ho). apply (cinvw_move shape); auto.
    + assert (Hend : cinvw (mkw (w_live s) (w_now s) (t_set (w_thr s) v (PEnd (w_now s) (w_now s) ERROR_STREAM_SOURCE_NOT_EXITS)))) by (apply (cinvw_move shape); auto).
      destruct edge; [|exact Hend]. destruct (l_edges (w_live s) n) as [e|] eqn:Ee; [apply (cinvw_move shape); auto|]. destruct st; [|exact Hend].
      pose proof (step_effect shape (w_live s) (OEdgeStart i n) (wi_edges _ I)) as Hf. destruct (step shape (w_live s) (OEdgeStart i n)) as [l x] eqn:Es. cbn [fst] in Hf.
      assert (C1 : cinv l (owned (w_thr s))).
      { eapply cinv_ext; [reflexivity|reflexivity|reflexivity| |eapply cinv_effect; [exact Hf|apply pending_clean; assumption|exact C]]. intros e H. left. exact H. }
      destruct x; try exact C. destruct C1 as (A & B). split; cbn [w_live w_thr]; [exact A|].
      intros e b m H He. apply owned_set in H. destruct H as [H|H]; [eapply B; eauto|]. injection H as <-.
      cbn [step] in Es. rewrite Er, Ee in Es. destruct (l_src (w_live s) i); [discriminate|]. injection Es as <-. cbn [set_edge set_src l_src] in He. rewrite updn_same in He. discriminate.
  - apply (run_facts shape s v a I C).
  - destruct (t_get (w_thr s) v) as [[]|] eqn:Et; try exact C. pose proof (wi_thr _ I v _ Et) as P. cbn [pinv] in P. destruct (c =? 0).
    + destruct (queue_of (w_live s) v); [apply (cinvw_move shape); auto|]. destruct (take_facts shape s v P) as (l1 & p' & -> & E1 & E2 & E3 & Ho). apply (cinvw_move shape); auto.
    + destruct (leave_facts shape s v (w_now s) c P) as (l & p & -> & E1 & E2 & E3 & Ho). apply (cinvw_move shape); auto.
  - destruct ((w_now s <=? t) && _); [|exact C]. eapply cinv_ext; [reflexivity|reflexivity|reflexivity| |exact C].
    cbn [w_thr]. intros e H. eapply owned_map; [|exact H]. intros; apply expire_owns.
Qed.
Lemma cinvw_run shape os : forall s, winv s -> calm shape s os -> cinvw s -> cinvw (wrun shape s os).
Proof.
  induction os as [|o os IH]; intros s I H C; [exact C|]. cbn [calm wrun] in *. destruct H as (H1 & H2). apply IH; [apply winv_step, I|exact H2|apply cinvw_step; assumption].
Qed.
(** Names stay taken until a source ends. *)
Lemma reg_stays shape s o n : winv s -> cinvw s -> no_end o -> l_reg (w_live s) n <> None -> l_reg (w_live (wstep shape s o)) n <> None.
Proof.
  intros I C Hno Hn. destruct o as [o|v a m edge i st|v a|v c|t].
  - cbn [wstep]. destruct (by_source o) eqn:Hb; [|exact Hn]. pose proof (step_effect shape (w_live s) o (wi_edges _ I)) as Hf.
    destruct (step shape (w_live s) o) as [l x]. cbn [fst] in Hf. destruct x; try exact Hn.
    assert (U : forall f k (c : nat), f n <> None -> updk f k (Some c) n <> None) by (intros f k c; unfold updk; destruct (eqb_list n k); congruence).
    assert (K : l_reg l n <> None).
    { inversion Hf as [o' E Ee Er|i m c Ei E Ee Er|i m c d Ei E Ee Er|i m Ei Hn' Hr E Ee Er|i m c Ei E Ee Er|i ks Ei E Ee Er|i m Ei E Ee Er|i m c Ei E Ee Er|i m b Ei E Ee Er];
        subst; try destruct Hno; try discriminate Hb; rewrite Er; auto. }
    destruct o; try exact K; destruct Hno.
  - cbn [wstep]. destruct (t_get (w_thr s) v) eqn:Et; [exact Hn|]. destruct (l_views (w_live s) v) eqn:Ev; [exact Hn|].
    destruct (l_reg (w_live s) m) eqn:Er.
    + destruct (enter_facts shape s v a m (w_now s) I Ev) as (l & p & -> & E1 & E2 & E3 & Ho). cbn [w_live]. rewrite E3. exact Hn.
    + destruct edge; [|exact Hn]. destruct (l_edges (w_live s) m) eqn:Ee; [exact Hn|]. destruct st; [|exact Hn].
      cbn [step]. destruct (l_src (w_live s) i); [exact Hn|]. rewrite Er, Ee. exact Hn.
  - destruct (run_facts shape s v a I C) as (_ & _ & D). rewrite D. exact Hn.
  - cbn [wstep]. destruct (t_get (w_thr s) v) as [[]|] eqn:Et; try exact Hn. pose proof (wi_thr _ I v _ Et) as P. cbn [pinv] in P. destruct (c =? 0).
    + destruct (queue_of (w_live s) v); [exact Hn|]. destruct (take_facts shape s v P) as (l1 & p' & -> & E1 & E2 & E3 & Ho). cbn [w_live]. rewrite E3. exact Hn.
    + destruct (leave_facts shape s v (w_now s) c P) as (l & p & -> & E1 & E2 & E3 & Ho). cbn [w_live]. rewrite E3. exact Hn.
  - cbn [wstep]. destruct ((w_now s <=? t) && _); exact Hn.
Qed.
Lemma woken_served shape rs : forall s v n r t now, winv s -> cinvw s -> calm shape s rs -> Forall no_end rs ->
  (t_get (w_thr s) v = Some (PWoken n r t) /\ w_now s = now /\ l_reg (w_live s) n <> None \/ exists x, l_views (w_live s) v = Some x) ->
  now < w_now (wrun shape s rs) -> exists x, l_views (w_live (wrun shape s rs)) v = Some x.
Proof.
  induction rs as [|o rs IH]; intros s v n r t now I C Hc Hf K Hlt; cbn [wrun calm] in *.
  - destruct K as [(_ & E & _)|K]; [lia|exact K].
  - inversion Hf as [|? ? H1 H2]; subst. destruct Hc as (Hc1 & Hc2).
    apply (IH (wstep shape s o) v n r t now); [apply winv_step, I|apply cinvw_step; assumption|exact Hc2|exact H2| |exact Hlt].
    destruct K as [(Kw & Kn & Kr)|K]; [|right; apply views_stay; assumption].
    destruct (woken_step shape s o v n r t Kw) as [(A & B)|((a & ->) & B)].
    + left. split; [exact A|]. split; [congruence|]. apply reg_stays; assumption.
    + right. pose proof (woken_run shape s v n r t a I Kw) as H. cbv zeta in H. destruct (unref_same shape s v n r t I C Kw) as (_ & _ & D).
      rewrite D in H. destruct (l_reg (w_live s) n); [exact H|congruence].
Qed.
Lemma calm_app shape a : forall s b, calm shape s (a ++ b) -> calm shape s a /\ calm shape (wrun shape s a) b.
Proof. induction a as [|o a IH]; intros s b H; [split; [exact Logic.I|exact H]|]. cbn [app calm wrun] in *. destruct H as (H1 & H2). apply IH in H2. tauto. Qed.
(** A test for the examples. *)
Definition pending_b (s : wst) (n : list Z) : bool :=
  existsb (fun x => match snd x with PWoken m (Some e) _ => eqb_list m n && match l_src (w_live s) e with Some (SLeft _ _) => true | _ => false end | _ => false end) (w_thr s).
Lemma pending_b_ok s n : pending_b s n = false -> ~ pending s n.
Proof.
  intros H (v & e & t & b & ks & G & E). apply t_get_in in G. assert (K : pending_b s n = true).
  { apply existsb_exists. exists (v, PWoken n (Some e) t). split; [exact G|]. cbn [snd]. rewrite eqb_list_refl, E. reflexivity. }
  congruence.
Qed.
Definition calm1_b (s : wst) (o : wop) : bool :=
  match o with
  | WArrive _ _ n _ _ _ | WSrc (OPublish _ n) => negb (pending_b s n)
  | WSrc (OSrtPublish _ n) => negb (pending_b s n) && negb (pending_b s (TS_PREFIX ++ n))
  | _ => true
  end.
Fixpoint calm_b (shape : shaper) (s : wst) (os : list wop) : bool :=
  match os with [] => true | o :: r => calm1_b s o && calm_b shape (wstep shape s o) r end.
Lemma calm_b_ok shape os : forall s, calm_b shape s os = true -> calm shape s os.
Proof.
  induction os as [|o os IH]; intros s H; [exact Logic.I|]. cbn [calm_b calm] in *. apply andb_true_iff in H. destruct H as (H1 & H2). split; [|apply IH, H2].
  destruct o as [o|v a n edge i st|v a|v c|t]; try exact Logic.I; [destruct o; try exact Logic.I|]; cbn [calm1 calm1_b] in *.
  - apply pending_b_ok. apply negb_true_iff. exact H1.
  - apply andb_true_iff in H1. destruct H1 as (H1 & H3). split; apply pending_b_ok; apply negb_true_iff; assumption.
  - apply pending_b_ok. apply negb_true_iff. exact H1.
Qed.
