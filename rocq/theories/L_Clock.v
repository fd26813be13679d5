(** Lemmas about connections with a clock. *)
From Verif Require Import Base M_IO S_IO M_Text S_Url L_Url M_Http S_Http M_Conf M_Tls S_Tls M_Https S_Https L_IO L_Http L_Https M_Clock S_Clock.

Lemma in_time_gap tie T now from t : from <= now -> t < from + T -> in_time tie (Some T) now t = true.
Proof.
  intros H1 H2. unfold in_time. destruct (Z.leb_spec t now); [reflexivity|]. cbn.
  assert (t - now <? T = true) as -> by (apply Z.ltb_lt; lia). reflexivity.
Qed.
Lemma in_time_none tie now t : in_time tie None now t = true.
Proof. unfold in_time. apply orb_true_r. Qed.

Ltac dg y r E := match goal with
  | |- context [gather ?a ?b ?c] => destruct (gather a b c) as [y r] eqn:E
  | H : context [gather ?a ?b ?c] |- _ => destruct (gather a b c) as [y r] eqn:E
  end.

(** ** What a read takes. *)
Lemma gather_bytes now : forall evs n x r, gather now n evs = (x, r) -> bytes_of evs = x ++ bytes_of r.
Proof.
  induction evs as [|[t [d|c]] evs IH]; intros n x r H; cbn [gather] in H; try (injection H as <- <-; reflexivity).
  destruct (t <=? now); [|injection H as <- <-; reflexivity].
  destruct (zlen d <=? n).
  - destruct (gather now (n - zlen d) evs) as [y r1] eqn:E. injection H as <- <-. cbn [bytes_of].
    rewrite (IH _ _ _ E), app_assoc. reflexivity.
  - injection H as <- <-. cbn [bytes_of]. rewrite app_assoc, take_drop. reflexivity.
Qed.
Lemma gather_len now : forall evs n x r, gather now n evs = (x, r) -> 0 <= n -> zlen x <= n.
Proof.
  induction evs as [|[t [d|c]] evs IH]; intros n x r H Hn; cbn [gather] in H; try (injection H as <- <-; cbn; lia).
  destruct (t <=? now); [|injection H as <- <-; cbn; lia].
  destruct (Z.leb_spec (zlen d) n).
  - destruct (gather now (n - zlen d) evs) as [y r1] eqn:E. injection H as <- <-.
    pose proof (zlen_nonneg d). pose proof (IH _ _ _ E ltac:(lia)). rewrite zlen_app. lia.
  - injection H as <- <-. rewrite zlen_take by lia. lia.
Qed.
Lemma gather_some now evs n t d x r : gather now n ((t, PBytes d) :: evs) = (x, r) -> t <= now -> d <> [] -> 0 < n -> 0 < zlen x.
Proof.
  intros H Ht Hd Hn. cbn [gather] in H. destruct (Z.leb_spec t now); [|lia].
  assert (0 < zlen d). { destruct d; [contradiction|]. rewrite zlen_cons. pose proof (zlen_nonneg d). lia. }
  destruct (Z.leb_spec (zlen d) n).
  - destruct (gather now (n - zlen d) evs) as [y r1]. injection H as <- <-. rewrite zlen_app. pose proof (zlen_nonneg y). lia.
  - injection H as <- <-. rewrite zlen_take by lia. lia.
Qed.
Lemma drop_nonnil {A} (n : Z) (d : list A) : 0 <= n -> n < zlen d -> drop n d <> [].
Proof. intros H0 H E. pose proof (zlen_drop n d ltac:(lia)) as L. rewrite E in L. change (zlen (@nil A)) with 0 in L. lia. Qed.
Lemma gather_parts now : forall evs n x r, gather now n evs = (x, r) -> 0 <= n -> parts evs -> parts r.
Proof.
  induction evs as [|[t [d|c]] evs IH]; intros n x r H Hn P; cbn [gather] in H; try (injection H as <- <-; exact P).
  destruct (t <=? now); [|injection H as <- <-; exact P].
  assert (P1 : parts evs) by (intros t1 d1 Hi; apply (P t1); right; exact Hi).
  destruct (Z.leb_spec (zlen d) n).
  - destruct (gather now (n - zlen d) evs) as [y r1] eqn:E. injection H as <- <-.
    exact (IH _ _ _ E ltac:(lia) P1).
  - injection H as <- <-. intros t1 d1 [Hi|Hi]; [|exact (P1 _ _ Hi)]. injection Hi as <- <-. apply drop_nonnil; lia.
Qed.
(** The peer's schedule after a read, counted from a time [from] not after the
    clock. *)
Lemma gather_comes now c : forall evs n x r from, gather now n evs = (x, r) -> 0 <= n -> from <= now -> comes from evs c ->
  exists from', from <= from' <= now /\ comes from' r c.
Proof.
  induction evs as [|[t [d|e]] evs IH]; intros n x r from H Hn Hf P; cbn [gather] in H.
  - destruct P.
  - destruct (Z.leb_spec t now).
    + destruct P as (P1 & P2 & P3). destruct (Z.leb_spec (zlen d) n).
      * destruct (gather now (n - zlen d) evs) as [y r1] eqn:E. injection H as <- <-.
        destruct (IH _ _ _ t E ltac:(lia) ltac:(lia) P3) as (f & F1 & F2). exists f. split; [lia|exact F2].
      * injection H as <- <-. exists from. split; [lia|]. cbn. split; [lia|]. split; [apply drop_nonnil; lia|exact P3].
    + injection H as <- <-. exists from. split; [lia|exact P].
  - injection H as <- <-. exists from. split; [lia|exact P].
Qed.
Lemma gather_no_gap now T c : forall evs n x r from, gather now n evs = (x, r) -> 0 <= n -> from <= now -> comes from evs c -> no_gap T from evs ->
  exists from', from <= from' <= now /\ comes from' r c /\ no_gap T from' r.
Proof.
  induction evs as [|[t [d|e]] evs IH]; intros n x r from H Hn Hf P G; cbn [gather] in H.
  - destruct P.
  - destruct (Z.leb_spec t now).
    + destruct P as (P1 & P2 & P3). destruct G as (G1 & G2). destruct (Z.leb_spec (zlen d) n).
      * destruct (gather now (n - zlen d) evs) as [y r1] eqn:E. injection H as <- <-.
        destruct (IH _ _ _ t E ltac:(lia) ltac:(lia) P3 G2) as (f & F1 & F2). exists f. split; [lia|exact F2].
      * injection H as <- <-. exists from. split; [lia|]. split; [|split; [exact G1|exact G2]].
        cbn. split; [lia|]. split; [apply drop_nonnil; lia|exact P3].
    + injection H as <- <-. exists from. split; [lia|]. split; [exact P|exact G].
  - injection H as <- <-. exists from. split; [lia|]. split; [exact P|exact G].
Qed.

(** ** A peer that keeps sending. *)
Lemma run_timely {A} tie T c (p : prog A) : forall now from evs, from <= now -> comes from evs c -> no_gap T from evs ->
  run_clock tie (Some T) p now evs = run_clock tie None p now evs.
Proof.
  induction p as [a|n k IHk ke IHe]; intros now from evs Hf HC HG; [reflexivity|]. cbn [run_clock]. unfold tk_read.
  destruct (Z.leb_spec n 0) as [Hn|Hn]; [apply (IHe _ _ from); assumption|].
  destruct evs as [|[t e] evs]; [destruct HC|].
  assert (Ht : t < from + T) by (destruct HG as [G _]; exact G).
  rewrite (in_time_gap tie T now from t Hf Ht), in_time_none.
  destruct e as [d|x].
  - dg y r E.
    destruct (gather_no_gap _ T c _ _ _ _ from E ltac:(lia) ltac:(lia) HC HG) as (f & F1 & F2 & F3).
    apply (IHk y _ f); [lia|exact F2|exact F3].
  - apply (IHe _ _ from); [lia|exact HC|exact HG].
Qed.

Fixpoint chunks_of (evs : list arr) : list (list Z) :=
  match evs with
  | (_, PBytes d) :: r => d :: chunks_of r
  | _ => []
  end.
Lemma chunks_concat evs : concat (chunks_of evs) = bytes_of evs.
Proof. induction evs as [|[t [d|c]] evs IH]; cbn; [reflexivity|rewrite IH; reflexivity|reflexivity]. Qed.
Lemma chunks_nonempty c : forall evs from, comes from evs c -> nonempty_chunks (chunks_of evs).
Proof.
  induction evs as [|[t [d|x]] evs IH]; intros from H; [constructor| |constructor].
  destruct H as (_ & Hd & H). constructor; [exact Hd|exact (IH _ H)].
Qed.

(** Without a limit, the clock only decides how the bytes are cut. *)
Lemma run_cut {A} tie c (p : prog A) : forall now from evs, from <= now -> comes from evs c ->
  exists cs t1 a t r, nonempty_chunks cs /\ concat cs = bytes_of evs /\
    run_clock tie None p now evs = Some (a, t, r) /\ run_plain p (mktr cs c) = (Ok a, t1) /\
    t_stream t1 = bytes_of r.
Proof.
  induction p as [a|n k IHk ke IHe]; intros now from evs Hf HC.
  - exists (chunks_of evs), (mktr (chunks_of evs) c), a, now, evs. split; [exact (chunks_nonempty _ _ _ HC)|].
    split; [apply chunks_concat|]. split; [reflexivity|]. split; [reflexivity|]. apply chunks_concat.
  - cbn [run_clock run_plain]. unfold tk_read. destruct (Z.leb_spec n 0) as [Hn|Hn].
    + destruct (IHe ERROR_IO_BUFFER_FULL now from evs Hf HC) as (cs & t1 & a & t & r & C1 & C2 & C3 & C4 & C5).
      exists cs, t1, a, t, r. split; [exact C1|]. split; [exact C2|]. split; [exact C3|]. split; [|exact C5].
      unfold t_read. destruct (Z.leb_spec n 0); [exact C4|lia].
    + destruct evs as [|[t0 e] evs]; [destruct HC|]. rewrite in_time_none. destruct e as [d|x].
      * assert (Hd : d <> []) by (destruct HC as (_ & X & _); exact X).
        dg y r0 E.
        pose proof (gather_some _ _ _ _ _ _ _ E ltac:(lia) Hd Hn) as Hy. pose proof (gather_len _ _ _ _ _ E ltac:(lia)) as Ly.
        pose proof (gather_bytes _ _ _ _ _ E) as By.
        destruct (gather_comes _ c _ _ _ _ from E ltac:(lia) ltac:(lia) HC) as (f & F1 & F2).
        destruct (IHk y (Z.max now t0) f r0 ltac:(lia) F2) as (cs & t1 & a & t & r & C1 & C2 & C3 & C4 & C5).
        exists (y :: cs), t1, a, t, r. split; [constructor; [intros ->; discriminate|exact C1]|].
        split; [cbn [concat]; rewrite C2, By; reflexivity|]. split; [exact C3|]. split; [|exact C5].
        unfold t_read. cbn [t_chunks t_err]. destruct (Z.leb_spec n 0); [lia|]. destruct (Z.leb_spec (zlen y) n); [exact C4|lia].
      * assert (K : x = c /\ evs = []) by (destruct HC as (_ & X & Y); auto). destruct K as [-> ->].
        destruct (IHe c (Z.max now t0) from _ ltac:(lia) HC) as (cs & t1 & a & t & r & C1 & C2 & C3 & C4 & C5).
        assert (cs = []) as ->.
        { destruct cs as [|y cs]; [reflexivity|]. pose proof (Forall_inv C1) as Y. cbn in C2. apply app_eq_nil in C2 as [C2 _]. contradiction. }
        exists [], t1, a, t, r. split; [constructor|]. split; [reflexivity|]. split; [exact C3|]. split; [|exact C5].
        unfold t_read. cbn [t_chunks t_err]. destruct (Z.leb_spec n 0); [lia|exact C4].
Qed.

(** What has not happened yet when the program ends is still to come. *)
Lemma gather_later now : forall evs n x r e, gather now n evs = (x, r) -> In e evs -> now < fst e -> In e r.
Proof.
  induction evs as [|[t [d|c]] evs IH]; intros n x r e H Hi He; cbn [gather] in H; [destruct Hi| |injection H as <- <-; exact Hi].
  destruct (Z.leb_spec t now); [|injection H as <- <-; exact Hi].
  destruct Hi as [<-|Hi]; [cbn in He; lia|].
  destruct (zlen d <=? n); [|injection H as <- <-; right; exact Hi].
  destruct (gather now (n - zlen d) evs) as [y r1] eqn:E. injection H as <- <-. exact (IH _ _ _ _ E Hi He).
Qed.
Lemma run_later {A} tie (p : prog A) : forall now evs a t r e, run_clock tie None p now evs = Some (a, t, r) ->
  now <= t /\ (In e evs -> t < fst e -> In e r).
Proof.
  induction p as [a0|n k IHk ke IHe]; intros now evs a t r e H; cbn [run_clock] in H.
  - injection H as <- <- <-. split; [lia|auto].
  - unfold tk_read in H. destruct (n <=? 0); [exact (IHe _ _ _ _ _ _ e H)|].
    destruct evs as [|[t0 v] evs]; [discriminate|]. rewrite in_time_none in H. destruct v as [d|x].
    + dg y r0 E.
      destruct (IHk _ _ _ _ _ _ e H) as [L1 L2]. split; [lia|]. intros Hi He. apply L2; [|exact He].
      apply (gather_later _ _ _ _ _ _ E Hi). lia.
    + destruct (IHe _ _ _ _ _ _ e H) as [L1 L2]. split; [lia|exact L2].
Qed.

(** ** A peer that falls silent. *)
Lemma latest_from from evs : from <= latest from evs.
Proof. unfold latest. induction evs as [|e evs IH]; cbn; lia. Qed.
Lemma latest_in from evs e : In e evs -> fst e <= latest from evs.
Proof. unfold latest. induction evs as [|x evs IH]; cbn; [intros []|]. intros [<-|H]; [lia|]. specialize (IH H). lia. Qed.
Lemma latest_le from evs m : from <= m -> (forall e, In e evs -> fst e <= m) -> latest from evs <= m.
Proof.
  unfold latest. intros Hm. induction evs as [|x evs IH]; cbn; intros H; [lia|].
  pose proof (H x (or_introl eq_refl)). specialize (IH (fun e He => H e (or_intror He))). lia.
Qed.
Lemma gather_times now : forall evs n x r e, gather now n evs = (x, r) -> In e r -> exists e', In e' evs /\ fst e' = fst e.
Proof.
  induction evs as [|[t [d|c]] evs IH]; intros n x r e H Hi; cbn [gather] in H.
  - injection H as <- <-. destruct Hi.
  - destruct (t <=? now); [|injection H as <- <-; eauto].
    destruct (zlen d <=? n).
    + destruct (gather now (n - zlen d) evs) as [y r1] eqn:E. injection H as <- <-.
      destruct (IH _ _ _ _ E Hi) as (e' & A1 & A2). exists e'. split; [right; exact A1|exact A2].
    + injection H as <- <-. destruct Hi as [<-|Hi]; [exists (t, PBytes d); split; [left; reflexivity|reflexivity]|].
      exists e. split; [right; exact Hi|reflexivity].
  - injection H as <- <-. eauto.
Qed.

Lemma run_ends {A} tie T (p : prog A) : 0 <= T -> reads_ok p -> forall now evs, parts evs ->
  exists a t r, run_clock tie (Some T) p now evs = Some (a, t, r) /\ t <= latest now evs + T.
Proof.
  intros HT H. induction H as [a|n k ke Hn Hk IH He]; intros now evs P.
  - exists a, now, evs. split; [reflexivity|]. pose proof (latest_from now evs). lia.
  - cbn [run_clock]. unfold tk_read. destruct (Z.leb_spec n 0); [lia|].
    pose proof (latest_from now evs) as L0.
    destruct evs as [|[t e] evs].
    { destruct (He ERROR_SOCKET_TIMEOUT) as (a & ->). cbn [run_clock]. exists a, (now + T), []. split; [reflexivity|lia]. }
    pose proof (latest_in now (@cons arr (t, e) evs) (t, e) (or_introl eq_refl)) as L1. cbn [fst] in L1.
    destruct (in_time tie (Some T) now t).
    2: { destruct (He ERROR_SOCKET_TIMEOUT) as (a & ->). cbn [run_clock]. eexists a, (now + T), _. split; [reflexivity|lia]. }
    destruct e as [d|x].
    + dg y r E.
      assert (Hd : d <> []) by (apply (P t); left; reflexivity).
      pose proof (gather_some _ _ _ _ _ _ _ E ltac:(lia) Hd ltac:(lia)) as Hy. pose proof (gather_len _ _ _ _ _ E ltac:(lia)) as Ly.
      destruct (IH y ltac:(lia) (Z.max now t) r (gather_parts _ _ _ _ _ E ltac:(lia) P)) as (a & t1 & r1 & R1 & R2).
      exists a, t1, r1. split; [exact R1|].
      enough (latest (Z.max now t) r <= latest now (@cons arr (t, PBytes d) evs)) by lia.
      apply latest_le; [lia|]. intros e1 Hi. destruct (gather_times _ _ _ _ _ _ E Hi) as (e2 & I2 & <-). apply latest_in, I2.
    + destruct (He x) as (a & ->). cbn [run_clock]. eexists a, _, _. split; [reflexivity|lia].
Qed.

(** ** How long it may take to ask for [D] bytes. *)
Lemma in_time_bound tie T now t : 0 <= T -> in_time tie (Some T) now t = true -> Z.max now t <= now + T.
Proof.
  intros HT H. unfold in_time in H. apply orb_true_iff in H as [H|H]; [apply Z.leb_le in H; lia|].
  apply orb_true_iff in H as [H|H]; [apply Z.ltb_lt in H; lia|]. apply andb_true_iff in H as [_ H]. apply Z.eqb_eq in H. lia.
Qed.
Lemma run_asks {A} tie T (p : prog A) D : 0 <= T -> asks p D -> forall now evs, parts evs ->
  exists a t r, run_clock tie (Some T) p now evs = Some (a, t, r) /\ t <= now + T * D.
Proof.
  intros HT H. induction H as [a D HD|n k ke D Hn Hk IH He]; intros now evs P.
  - exists a, now, evs. split; [reflexivity|]. nia.
  - cbn [run_clock]. unfold tk_read. destruct (Z.leb_spec n 0); [lia|].
    destruct evs as [|[t e] evs].
    { destruct (He ERROR_SOCKET_TIMEOUT) as (a & ->). cbn [run_clock]. exists a, (now + T), []. split; [reflexivity|nia]. }
    destruct (in_time tie (Some T) now t) eqn:Ei.
    2: { destruct (He ERROR_SOCKET_TIMEOUT) as (a & ->). cbn [run_clock]. eexists a, (now + T), _. split; [reflexivity|nia]. }
    pose proof (in_time_bound _ _ _ _ HT Ei) as Hb. destruct e as [d|x].
    + dg y r E.
      assert (Hd : d <> []) by (apply (P t); left; reflexivity).
      pose proof (gather_some _ _ _ _ _ _ _ E ltac:(lia) Hd ltac:(lia)) as Hy. pose proof (gather_len _ _ _ _ _ E ltac:(lia)) as Ly.
      destruct (IH y ltac:(lia) (Z.max now t) r (gather_parts _ _ _ _ _ E ltac:(lia) P)) as (a & t1 & r1 & R1 & R2).
      exists a, t1, r1. split; [exact R1|]. nia.
    + destruct (He x) as (a & ->). cbn [run_clock]. eexists a, _, _. split; [reflexivity|nia].
Qed.

(** ** The head of a request asks for at most the size of the buffer. *)
Inductive within {A} (Q : A -> Z -> Prop) (QE : A -> Prop) : prog A -> Z -> Prop :=
| wi_ret a D : 0 <= D -> Q a D -> within Q QE (PRet a) D
| wi_read n k ke D : 0 < n <= D -> (forall d, 0 < zlen d <= n -> within Q QE (k d) (D - zlen d)) ->
    (forall c, exists a, ke c = PRet a /\ QE a) -> within Q QE (PRead n k ke) D.
Lemma within_asks {A} Q QE (p : prog A) D : within Q QE p D -> asks p D.
Proof.
  intros H. induction H as [a D HD Ha|n k ke D Hn Hk IH He]; [constructor; exact HD|].
  constructor; [exact Hn|exact IH|]. intros c. destruct (He c) as (a & Ha & _). eauto.
Qed.
Lemma within_bind {A B} (Q : A -> Z -> Prop) (QE : A -> Prop) (Q' : B -> Z -> Prop) (QE' : B -> Prop) p f D : within Q QE p D ->
  (forall a D', 0 <= D' -> Q a D' -> within Q' QE' (f a) D') -> (forall a, QE a -> exists b, f a = PRet b /\ QE' b) ->
  within Q' QE' (pbind p f) D.
Proof.
  intros H Hf He. induction H as [a D HD Ha|n k ke D Hn Hk IH Hke]; cbn [pbind]; [apply Hf; assumption|].
  constructor; [exact Hn|exact IH|]. intros c. destruct (Hke c) as (a & -> & Ha). cbn [pbind]. apply He, Ha.
Qed.
Lemma rf_within fuel size : forall acc D, (Z.to_nat (size - zlen acc) < fuel)%nat -> zlen acc < size -> size - zlen acc <= D ->
  within (fun r D' => exists d, r = Ok d /\ zlen d = size /\ D' = D - (size - zlen acc)) (fun r => exists c, r = Err c) (rf_prog fuel size acc) D.
Proof.
  induction fuel as [|f IH]; intros acc D Hf Hs HD; [lia|]. cbn [rf_prog]. constructor; [lia| |].
  - intros d Hd. destruct (Z.ltb_spec (zlen (acc ++ d)) size) as [K|K]; rewrite zlen_app in K.
    + specialize (IH (acc ++ d) (D - zlen d)). rewrite zlen_app in IH.
      specialize (IH ltac:(lia) ltac:(lia) ltac:(lia)).
      replace (D - zlen d - (size - (zlen acc + zlen d))) with (D - (size - zlen acc)) in IH by lia. exact IH.
    + constructor; [lia|]. exists (acc ++ d). split; [reflexivity|]. rewrite zlen_app. split; lia.
  - intros c. exists (Err c). split; [reflexivity|eauto].
Qed.
Lemma hl_within fuel max : forall state buf, 0 < state -> zlen buf <= max ->
  within (fun _ _ => True) (fun _ => True) (hl_prog fuel max state buf) (max - zlen buf).
Proof.
  induction fuel as [|f IH]; intros state buf Hs Hb; cbn [hl_prog]; [constructor; [lia|exact I]|].
  destruct (Z.ltb_spec (max - zlen buf) state); [constructor; [lia|exact I]|].
  eapply within_bind; [apply rf_within; change (zlen (@nil Z)) with 0; lia| |].
  - intros r D' HD' (d & -> & Ld & ->). change (zlen (@nil Z)) with 0.
    destruct (head_next (buf ++ d)) as [o|c| |] eqn:E; try (constructor; [change (zlen (@nil Z)) with 0; lia|exact I]).
    destruct o as [n|]; [|constructor; [lia|exact I]].
    specialize (IH n (buf ++ d) (head_next_pos _ _ E)). rewrite zlen_app in IH.
    replace (max - zlen buf - (state - 0)) with (max - (zlen buf + zlen d)) by lia. apply IH. lia.
  - intros r (c & ->). eexists. split; [reflexivity|exact I].
Qed.
Lemma head_asks max : 0 <= max -> asks (head_prog max) max.
Proof.
  intros H. pose proof (hl_within (S (Z.to_nat max)) max 4 [] ltac:(lia)) as W. change (zlen (@nil Z)) with 0 in W.
  rewrite Z.sub_0_r in W. exact (within_asks _ _ _ _ (W H)).
Qed.

(** ** Dripping. *)
Lemma drip_comes gap c : 0 <= gap -> forall h now, comes now (drip gap now h c) c.
Proof. intros H. induction h as [|b h IH]; intros now; cbn; [split; [lia|split; reflexivity]|]. split; [lia|]. split; [discriminate|apply IH]. Qed.
Lemma drip_no_gap gap c T : 0 <= gap < T -> forall h now, no_gap T now (drip gap now h c).
Proof. intros H. induction h as [|b h IH]; intros now; cbn; (split; [lia|]); [exact I|apply IH]. Qed.
Lemma drip_bytes gap c : forall h now, bytes_of (drip gap now h c) = h.
Proof. induction h as [|b h IH]; intros now; cbn; [reflexivity|rewrite IH; reflexivity]. Qed.
Lemma drip_last gap c : forall h b now, exists d, In (now + gap * zlen (h ++ [b]), PBytes d) (drip gap now (h ++ [b]) c) /\ d <> [].
Proof.
  induction h as [|x h IH]; intros b now; cbn [app drip].
  - exists [b]. change (zlen [b]) with 1. replace (now + gap * 1) with (now + gap) by lia. split; [left; reflexivity|discriminate].
  - destruct (IH b (now + gap)) as (d & I1 & I2). exists d. rewrite zlen_cons. replace (now + gap * (1 + zlen (h ++ [b]))) with (now + gap + gap * zlen (h ++ [b])) by lia.
    split; [right; exact I1|exact I2].
Qed.
Lemma bytes_nil_in c : forall evs from t d, comes from evs c -> bytes_of evs = [] -> In (t, PBytes d) evs -> d = [].
Proof.
  intros evs from t d H E Hi. destruct evs as [|[t0 [d0|x]] evs]; [destruct Hi| |].
  - destruct H as (_ & Hd & _). cbn in E. apply app_eq_nil in E as [E _]. contradiction.
  - destruct H as (_ & _ & ->). destruct Hi as [Hi|[]]. discriminate.
Qed.
Lemma run_comes {A} tie c (p : prog A) : forall now from evs a t r, from <= now -> comes from evs c ->
  run_clock tie None p now evs = Some (a, t, r) -> exists from', comes from' r c.
Proof.
  induction p as [a0|n k IHk ke IHe]; intros now from evs a t r Hf HC H; cbn [run_clock] in H.
  - injection H as <- <- <-. eauto.
  - unfold tk_read in H. destruct (n <=? 0) eqn:En; [exact (IHe _ _ _ _ _ _ _ Hf HC H)|]. apply Z.leb_gt in En.
    destruct evs as [|[t0 v] evs]; [destruct HC|]. rewrite in_time_none in H. destruct v as [d|x].
    + dg y r0 E.
      destruct (gather_comes _ c _ _ _ _ from E ltac:(lia) ltac:(lia) HC) as (f & F1 & F2).
      refine (IHk y _ f _ _ _ _ _ F2 H). lia.
    + refine (IHe _ _ from _ _ _ _ _ HC H). lia.
Qed.

Lemma slow_head tie T now h c : 2 <= T -> is_head h -> zlen h <= MAX_HEADER ->
  exists t r, run_clock tie (Some T) (head_prog MAX_HEADER) now (drip (T - 1) now h c) = Some (Ok h, t, r) /\ now + (T - 1) * zlen h <= t.
Proof.
  intros HT Hh Hm.
  pose proof (drip_comes (T - 1) c ltac:(lia) h now) as HC.
  rewrite (run_timely tie T c (head_prog MAX_HEADER) now now _ (Z.le_refl _) HC (drip_no_gap (T - 1) c T ltac:(lia) h now)).
  destruct (run_cut tie c (head_prog MAX_HEADER) now now _ (Z.le_refl _) HC) as (cs & t1 & a & t & r & C1 & C2 & C3 & C4 & C5).
  rewrite drip_bytes in C2.
  assert (Hs : t_stream (mktr cs c) = h ++ []) by (rewrite app_nil_r; exact C2).
  destruct (read_head_ok h [] (mktr cs c) MAX_HEADER (is_head_shape h Hh) C1 Hs Hm) as (t2 & R1 & R2 & _).
  rewrite head_prog_run, R1 in C4. injection C4 as <- <-. rewrite R2 in C5.
  exists t, r. split; [exact C3|].
  destruct (run_comes tie c _ _ _ _ _ _ _ (Z.le_refl _) HC C3) as (f & HR).
  destruct h as [|b0 h0] using rev_ind; [destruct (is_head_shape _ Hh) as [X _]; exfalso|clear IHh0].
  { destruct Hh as (ls & Hl & Hf & E). destruct ls as [|l ls]; [contradiction|]. pose proof (Forall_inv Hf) as [K _]. cbn in E.
    destruct l; [contradiction|discriminate]. }
  destruct (drip_last (T - 1) c h0 b0 now) as (d & D1 & D2).
  destruct (run_later tie _ _ _ _ _ _ (now + (T - 1) * zlen (h0 ++ [b0]), PBytes d) C3) as [_ L].
  destruct (Z.le_gt_cases (now + (T - 1) * zlen (h0 ++ [b0])) t) as [K|K]; [exact K|]. exfalso.
  specialize (L D1 K). apply D2. exact (bytes_nil_in c r f _ d HR (eq_sym C5) L).
Qed.

(** ** Writing. *)
Lemma tk_write_drained tie T : forall evs now from room data, from <= now -> 0 <= room -> drains T from evs -> zlen data <= room + total_room evs ->
  exists t room1 r1 from1, tk_write tie (Some T) now room evs data = Some (Ok tt, data, t, room1, r1) /\
    from1 <= t /\ now <= t /\ 0 <= room1 /\ drains T from1 r1 /\ room1 + total_room r1 = room + total_room evs - zlen data.
Proof.
  induction evs as [|[t n] evs IH]; intros now from room data Hf Hr HD Hl; cbn [tk_write].
  - cbn in Hl. destruct (Z.leb_spec (zlen data) room); [|lia]. exists now, (room - zlen data), [], from.
    split; [reflexivity|]. cbn. lia.
  - destruct (Z.leb_spec (zlen data) room).
    + exists now, (room - zlen data), ((t, n) :: evs), from. split; [reflexivity|]. split; [lia|]. split; [lia|]. split; [lia|]. split; [exact HD|lia].
    + destruct HD as (D1 & D2 & D3). rewrite (in_time_gap tie T now from t Hf ltac:(lia)).
      assert (Ld : zlen (drop room data) = zlen data - room) by (rewrite zlen_drop by lia; lia).
      change (total_room ((t, n) :: evs)) with (n + total_room evs) in Hl.
      destruct (IH (Z.max now t) t n (drop room data) ltac:(lia) ltac:(lia) D3 ltac:(lia)) as (t1 & room1 & r1 & f1 & E & F1 & F2 & F3 & F4 & F5).
      exists t1, room1, r1, f1. rewrite E, take_drop. split; [reflexivity|]. split; [exact F1|]. split; [lia|]. split; [exact F3|]. split; [exact F4|].
      change (total_room ((t, n) :: evs)) with (n + total_room evs). lia.
Qed.
Lemma puts_drained tie T : forall datas evs now from room, from <= now -> 0 <= room -> drains T from evs ->
  Forall (fun d => d <> []) datas -> zlen (concat datas) <= room + total_room evs ->
  exists t, tcp_puts tie (Some T) now room evs datas = Some (Ok tt, concat datas, t).
Proof.
  induction datas as [|d ds IH]; intros evs now from room Hf Hr HD Hn Hl; cbn [tcp_puts concat]; [eauto|].
  cbn [concat] in Hl. rewrite zlen_app in Hl. pose proof (zlen_nonneg (concat ds)).
  destruct (tk_write_drained tie T evs now from room d Hf Hr HD ltac:(lia)) as (t & room1 & r1 & f1 & E & F1 & F2 & F3 & F4 & F5).
  unfold tcp_put. destruct d as [|b d]; [exfalso; apply (Forall_inv Hn); reflexivity|]. rewrite E.
  destruct (IH r1 t f1 room1 F1 F3 F4 (Forall_inv_tail Hn) ltac:(lia)) as (t2 & ->). eauto.
Qed.
Lemma latest_room_cons from t n evs : latest_room from ((t, n) :: evs) = Z.max t (latest_room from evs).
Proof. reflexivity. Qed.
Lemma latest_room_from from evs : from <= latest_room from evs.
Proof. unfold latest_room. induction evs as [|e evs IH]; cbn; lia. Qed.
Lemma latest_room_max a b evs : latest_room (Z.max a b) evs = Z.max a (latest_room b evs).
Proof. unfold latest_room. induction evs as [|e evs IH]; cbn; lia. Qed.
Lemma tk_write_ends tie T : 0 <= T -> forall evs now room data, exists x sent t room1 r1,
  tk_write tie (Some T) now room evs data = Some (x, sent, t, room1, r1) /\
  ((x = Ok tt /\ sent = data /\ t <= latest_room now evs /\ latest_room t r1 <= latest_room now evs) \/
   (x = Err ERROR_SOCKET_TIMEOUT /\ t <= latest_room now evs + T /\ exists rest, data = sent ++ rest)).
Proof.
  intros HT. induction evs as [|[t n] evs IH]; intros now room data; cbn [tk_write].
  - destruct (zlen data <=? room).
    + eexists _, _, _, _, _. split; [reflexivity|]. left. cbn. lia || (split; [reflexivity|]; split; [reflexivity|]; lia).
    + eexists _, _, _, _, _. split; [reflexivity|]. right. split; [reflexivity|]. split; [cbn; lia|]. exists (drop room data). symmetry. apply take_drop.
  - rewrite latest_room_cons. pose proof (latest_room_from now evs) as L0. destruct (zlen data <=? room).
    + eexists _, _, _, _, _. split; [reflexivity|]. left. rewrite latest_room_cons. split; [reflexivity|]. split; [reflexivity|]. lia.
    + destruct (in_time tie (Some T) now t) eqn:Ei.
      2: { eexists _, _, _, _, _. split; [reflexivity|]. right. split; [reflexivity|]. split; [lia|]. exists (drop room data). symmetry. apply take_drop. }
      destruct (IH (Z.max now t) n (drop room data)) as (x & sent & t1 & room1 & r1 & E & C). rewrite E.
      rewrite Z.max_comm in C. rewrite latest_room_max in C.
      eexists _, _, _, _, _. split; [reflexivity|]. destruct C as [(-> & -> & C1 & C2)|(-> & C1 & rest & C2)].
      * left. rewrite take_drop. auto.
      * right. split; [reflexivity|]. split; [exact C1|]. exists rest. rewrite <- app_assoc, <- C2. symmetry. apply take_drop.
Qed.
Lemma puts_end tie T : 0 <= T -> forall datas evs now room, exists x sent t,
  tcp_puts tie (Some T) now room evs datas = Some (x, sent, t) /\ t <= latest_room now evs + T /\
  (exists rest, concat datas = sent ++ rest) /\ (x = Ok tt -> sent = concat datas).
Proof.
  intros HT. induction datas as [|d ds IH]; intros evs now room; cbn [tcp_puts].
  - eexists _, _, _. split; [reflexivity|]. pose proof (latest_room_from now evs). split; [lia|]. split; [exists []; reflexivity|reflexivity].
  - pose proof (latest_room_from now evs). unfold tcp_put. destruct d as [|b d].
    { eexists _, _, _. split; [reflexivity|]. split; [lia|]. split; [eexists; reflexivity|discriminate]. }
    destruct (tk_write_ends tie T HT evs now room (b :: d)) as (x & sent & t & room1 & r1 & E & [(-> & -> & C1 & C2)|(-> & C1 & rest & C2)]); rewrite E.
    + destruct (IH r1 t room1) as (x & sent & t2 & E2 & F1 & (rest & F2) & F3). rewrite E2.
      eexists _, _, _. split; [reflexivity|]. split; [lia|]. split; [exists rest; cbn [concat]; rewrite F2, app_assoc; reflexivity|].
      intros Hx. rewrite (F3 Hx). reflexivity.
    + eexists _, _, _. split; [reflexivity|]. split; [exact C1|]. split; [|discriminate].
      exists (rest ++ concat ds). cbn [concat]. rewrite C2, app_assoc. reflexivity.
Qed.

(** ** The limits. *)
Lemma atoll_number ds : ds <> [] -> Forall (fun c => 48 <= c <= 57) ds -> dec_value ds 0 < 2 ^ 63 -> 0 <= dec_value ds 0 /\ atoll ds = dec_value ds 0.
Proof.
  intros Hne Hd Hlt. destruct ds as [|c ds]; [contradiction|].
  assert (Hpos : forall l acc, Forall (fun c => 48 <= c <= 57) l -> 0 <= acc -> 0 <= dec_value l acc).
  { induction l as [|x l IH]; intros acc Hf Ha; cbn [dec_value]; [lia|]. apply IH; [exact (Forall_inv_tail Hf)|]. pose proof (Forall_inv Hf). cbn beta in H. lia. }
  pose proof (Forall_inv Hd) as Hc. cbn beta in Hc. unfold atoll, skip_space.
  replace (is_space c) with false by (unfold is_space; lia). unfold sign_of.
  destruct (c =? 45) eqn:E1; [lia|]. destruct (c =? 43) eqn:E2; [lia|].
  rewrite numrun_dec by exact Hd. pose proof (Hpos (c :: ds) 0 Hd ltac:(lia)) as H0. split; [exact H0|]. lia.
Qed.
