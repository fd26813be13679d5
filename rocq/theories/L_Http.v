(** Proofs about the HTTP head reader. *)
From Verif Require Import Base M_IO S_IO L_IO M_Text M_Http S_Http.

(** ** Local shape of a head *)
Record head_shape (h : list Z) : Prop := {
  hs_cr : forall i, nthz h i = Some 13 -> nthz h (i + 1) = Some 10;
  hs_lf : forall i, nthz h i = Some 10 -> nthz h (i - 1) = Some 13;
  hs_end : nthz h (zlen h - 4) = Some 13 /\ nthz h (zlen h - 3) = Some 10 /\
           nthz h (zlen h - 2) = Some 13 /\ nthz h (zlen h - 1) = Some 10;
  hs_first : forall i, nthz h i = Some 13 -> nthz h (i + 2) = Some 13 -> i = zlen h - 4
}.

Lemma nthz_neg {A} (l : list A) i : i < 0 -> nthz l i = None.
Proof. intros H. destruct (nthz l i) eqn:E; [|reflexivity]. apply nthz_some_range in E. lia. Qed.

Lemma plain_nth l i c : plain l -> nthz l i = Some c -> c <> 13 /\ c <> 10.
Proof. intros Hp Hn. unfold plain in Hp. rewrite Forall_forall in Hp. apply Hp. eapply nthz_In; eauto. Qed.

Lemma nth_crlf i c : nthz [13; 10] i = Some c -> (i = 0 /\ c = 13) \/ (i = 1 /\ c = 10).
Proof.
  intros H. pose proof (nthz_some_range _ _ _ H) as Hr. cbn in Hr.
  assert (i = 0 \/ i = 1) as [->| ->] by lia; cbn in H; injection H as <-; auto.
Qed.

Lemma head_shape_lines ls : ls <> [] -> Forall (fun l => l <> [] /\ plain l) ls ->
  head_shape (crlf_lines ls ++ [13; 10]) /\
  (exists c, nthz (crlf_lines ls ++ [13; 10]) 0 = Some c /\ c <> 13 /\ c <> 10).
Proof.
  induction ls as [|l ls IH]; [congruence|]. intros _ Hf. inversion_clear Hf as [|? ? [Hl Hp] Hf'].
  cbn [crlf_lines flat_map]. fold (crlf_lines ls).
  rewrite <- !app_assoc.
  assert (Hh : exists c, nthz (l ++ [13; 10] ++ crlf_lines ls ++ [13; 10]) 0 = Some c /\ c <> 13 /\ c <> 10).
  { destruct l as [|z l']; [congruence|]. exists z. split; [reflexivity|]. inversion_clear Hp. assumption. }
  split; [|exact Hh]. clear Hh.
  (* the part after the first line *)
  set (h' := crlf_lines ls ++ [13; 10]).
  assert (Hh' : h' = [13; 10] \/ (head_shape h' /\ exists c, nthz h' 0 = Some c /\ c <> 13 /\ c <> 10)).
  { destruct ls as [|l2 ls2]; [left; reflexivity|right]. apply IH; [discriminate|assumption]. }
  clearbody h'. clear IH Hf' ls.
  assert (Hlen : 0 < zlen l) by (destruct l; [congruence|]; rewrite zlen_cons; pose proof (zlen_nonneg l); lia).
  assert (Hlen' : 2 <= zlen h').
  { destruct Hh' as [->|[Hs _]]; [cbn; lia|]. destruct (hs_end _ Hs) as (E1 & _).
    apply nthz_some_range in E1. lia. }
  assert (N1 : forall i, i < zlen l -> nthz (l ++ [13; 10] ++ h') i = nthz l i) by (intros; apply nthz_app_l; lia).
  assert (N2 : nthz (l ++ [13; 10] ++ h') (zlen l) = Some 13).
  { rewrite nthz_app_r by lia. rewrite Z.sub_diag. reflexivity. }
  assert (N3 : nthz (l ++ [13; 10] ++ h') (zlen l + 1) = Some 10).
  { rewrite nthz_app_r by lia. replace (zlen l + 1 - zlen l) with 1 by lia. reflexivity. }
  assert (N4 : forall i, zlen l + 2 <= i -> nthz (l ++ [13; 10] ++ h') i = nthz h' (i - zlen l - 2)).
  { intros i Hi. rewrite nthz_app_r by lia. rewrite nthz_app_r by (change (zlen [13; 10]) with 2; lia).
    change (zlen [13; 10]) with 2. reflexivity. }
  assert (HL : zlen (l ++ [13; 10] ++ h') = zlen l + 2 + zlen h').
  { rewrite !zlen_app. change (zlen [13; 10]) with 2. lia. }
  set (H := l ++ [13; 10] ++ h') in *. clearbody H.
  assert (Cases : forall i, i < zlen l \/ i = zlen l \/ i = zlen l + 1 \/ zlen l + 2 <= i) by (intros; lia).
  constructor.
  - intros i Hi. destruct (Cases i) as [C|[->|[->|C]]].
    + rewrite N1 in Hi by lia. apply plain_nth in Hi; [lia|assumption].
    + exact N3.
    + rewrite N3 in Hi; discriminate.
    + rewrite N4 in * by lia. replace (i + 1 - zlen l - 2) with (i - zlen l - 2 + 1) by lia.
      destruct Hh' as [->|[Hs _]]; [|apply (hs_cr _ Hs); assumption].
      apply nth_crlf in Hi. destruct Hi as [[-> _]|[_ Hx]]; [reflexivity|discriminate].
  - intros i Hi. destruct (Cases i) as [C|[->|[->|C]]].
    + rewrite N1 in Hi by lia. apply plain_nth in Hi; [lia|assumption].
    + rewrite N2 in Hi; discriminate.
    + replace (zlen l + 1 - 1) with (zlen l) by lia. exact N2.
    + rewrite N4 in Hi by lia. destruct Hh' as [->|[Hs Hc]].
      * apply nth_crlf in Hi. destruct Hi as [[_ Hx]|[Hx _]]; [discriminate|].
        replace (i - 1) with (zlen l + 2) by lia. rewrite N4 by lia.
        replace (zlen l + 2 - zlen l - 2) with 0 by lia. reflexivity.
      * pose proof (hs_lf _ Hs _ Hi) as Hi'. pose proof (nthz_some_range _ _ _ Hi').
        rewrite N4 by lia. replace (i - 1 - zlen l - 2) with (i - zlen l - 2 - 1) by lia. exact Hi'.
  - rewrite HL. destruct Hh' as [->|[Hs _]].
    + change (zlen [13; 10]) with 2.
      replace (zlen l + 2 + 2 - 4) with (zlen l) by lia. replace (zlen l + 2 + 2 - 3) with (zlen l + 1) by lia.
      repeat split; [exact N2|exact N3| |]; rewrite N4 by lia.
      * replace (zlen l + 2 + 2 - 2 - zlen l - 2) with 0 by lia. reflexivity.
      * replace (zlen l + 2 + 2 - 1 - zlen l - 2) with 1 by lia. reflexivity.
    + destruct (hs_end _ Hs) as (E1 & E2 & E3 & E4). pose proof (nthz_some_range _ _ _ E1).
      repeat split; rewrite N4 by lia.
      * replace (zlen l + 2 + zlen h' - 4 - zlen l - 2) with (zlen h' - 4) by lia. exact E1.
      * replace (zlen l + 2 + zlen h' - 3 - zlen l - 2) with (zlen h' - 3) by lia. exact E2.
      * replace (zlen l + 2 + zlen h' - 2 - zlen l - 2) with (zlen h' - 2) by lia. exact E3.
      * replace (zlen l + 2 + zlen h' - 1 - zlen l - 2) with (zlen h' - 1) by lia. exact E4.
  - intros i Hi Hi2. rewrite HL. destruct (Cases i) as [C|[->|[->|C]]].
    + rewrite N1 in Hi by lia. apply plain_nth in Hi; [lia|assumption].
    + rewrite N4 in Hi2 by lia. replace (zlen l + 2 - zlen l - 2) with 0 in Hi2 by lia.
      destruct Hh' as [->|[_ (c & Hc & Hc1 & _)]]; [change (zlen [13; 10]) with 2; lia|].
      rewrite Hc in Hi2. congruence.
    + rewrite N3 in Hi; discriminate.
    + rewrite N4 in Hi, Hi2 by lia. destruct Hh' as [->|[Hs _]].
      * apply nth_crlf in Hi2. destruct Hi2 as [[Hx _]|[_ Hx]]; [lia|discriminate].
      * replace (i + 2 - zlen l - 2) with (i - zlen l - 2 + 2) in Hi2 by lia.
        pose proof (hs_first _ Hs _ Hi Hi2). lia.
Qed.

Lemma is_head_shape h : is_head h -> head_shape h.
Proof. intros (ls & H1 & H2 & ->). exact (proj1 (head_shape_lines ls H1 H2)). Qed.

Lemma head_len h : head_shape h -> 4 <= zlen h.
Proof. intros Hs. destruct (hs_end _ Hs) as (E & _). apply nthz_some_range in E. lia. Qed.

(** ** The decision after each read *)
Lemma back_take h m k c : 0 <= k -> k < m <= zlen h -> nthz h (m - 1 - k) = Some c ->
  back (take m h) k = Ok c.
Proof.
  intros Hk Hm Hc. unfold back. rewrite zlen_take by lia. replace (Z.min m (zlen h)) with m by lia.
  rewrite nthz_take by lia. rewrite Hc. reflexivity.
Qed.

Lemma head_next_mid h m : head_shape h -> 4 <= m < zlen h ->
  exists n, head_next (take m h) = Ok (Some n) /\ 1 <= n <= 4 /\ n <= zlen h - m.
Proof.
  intros Hs Hm. destruct (hs_end _ Hs) as (E1 & E2 & E3 & E4).
  destruct (nthz_in_range h (m - 1)) as [c0 Hc0]; [lia|].
  destruct (nthz_in_range h (m - 2)) as [c1 Hc1]; [lia|].
  destruct (nthz_in_range h (m - 3)) as [c2 Hc2]; [lia|].
  destruct (nthz_in_range h (m - 4)) as [c3 Hc3]; [lia|].
  unfold head_next, LF, CR.
  rewrite (back_take h m 0 c0) by (try lia; rewrite Z.sub_0_r; assumption).
  rewrite (back_take h m 1 c1) by (try lia; replace (m - 1 - 1) with (m - 2) by lia; assumption).
  rewrite (back_take h m 2 c2) by (try lia; replace (m - 1 - 2) with (m - 3) by lia; assumption).
  rewrite (back_take h m 3 c3) by (try lia; replace (m - 1 - 3) with (m - 4) by lia; assumption).
  cbn [bind].
  destruct (c0 =? 10) eqn:EL; cbn [negb andb].
  - apply Z.eqb_eq in EL. subst c0. cbn [Z.eqb Pos.eqb].
    assert (m - 1 <> zlen h - 4) by (intros Hx; rewrite Hx, E1 in Hc0; discriminate).
    assert (m - 1 <> zlen h - 2) by (intros Hx; rewrite Hx, E3 in Hc0; discriminate).
    destruct (c2 =? 10) eqn:E2'; cbn [negb].
    + exfalso. apply Z.eqb_eq in E2'. subst c2.
      pose proof (hs_lf _ Hs _ Hc0) as K1. pose proof (hs_lf _ Hs _ Hc2) as K2.
      replace (m - 1 - 1) with (m - 3 - 1 + 2) in K1 by lia.
      pose proof (hs_first _ Hs _ K2 K1). lia.
    + destruct (c3 =? 13) eqn:E3'; cbn [negb].
      * exfalso. apply Z.eqb_eq in E3'. subst c3. pose proof (hs_cr _ Hs _ Hc3) as K.
        replace (m - 4 + 1) with (m - 3) in K by lia. rewrite Hc2 in K. injection K as ->. discriminate.
      * exists 2. split; [reflexivity|]. lia.
  - destruct (c0 =? 13) eqn:EC; cbn [negb].
    + apply Z.eqb_eq in EC. subst c0.
      assert (m - 1 <> zlen h - 3) by (intros Hx; rewrite Hx, E2 in Hc0; discriminate).
      assert (m - 1 <> zlen h - 1) by (intros Hx; rewrite Hx, E4 in Hc0; discriminate).
      destruct (c1 =? 10) eqn:E1'.
      * destruct (c2 =? 13) eqn:E2'.
        -- exists 1. split; [reflexivity|]. lia.
        -- exists 3. split; [reflexivity|].
           assert (m - 1 <> zlen h - 2); [|lia]. intros Hx.
           replace (m - 3) with (zlen h - 4) in Hc2 by lia. rewrite E1 in Hc2. injection Hc2 as <-. discriminate.
      * exists 3. split; [reflexivity|].
        assert (m - 1 <> zlen h - 2); [|lia]. intros Hx.
        replace (m - 2) with (zlen h - 3) in Hc1 by lia. rewrite E2 in Hc1. injection Hc1 as <-. discriminate.
    + exists 4. split; [reflexivity|].
      assert (m - 1 <> zlen h - 4) by (intros Hx; rewrite Hx, E1 in Hc0; injection Hc0 as <-; discriminate).
      assert (m - 1 <> zlen h - 3) by (intros Hx; rewrite Hx, E2 in Hc0; injection Hc0 as <-; discriminate).
      assert (m - 1 <> zlen h - 2) by (intros Hx; rewrite Hx, E3 in Hc0; injection Hc0 as <-; discriminate).
      assert (m - 1 <> zlen h - 1) by (intros Hx; rewrite Hx, E4 in Hc0; injection Hc0 as <-; discriminate).
      lia.
Qed.

Lemma head_next_end h : head_shape h -> head_next h = Ok None.
Proof.
  intros Hs. destruct (hs_end _ Hs) as (E1 & E2 & E3 & E4). pose proof (head_len h Hs) as Hl.
  unfold head_next, LF, CR, back. rewrite Z.sub_0_r, E4. cbn [of_opt bind].
  replace (zlen h - 1 - 2) with (zlen h - 3) by lia. rewrite E2. reflexivity.
Qed.

(** ** The loop on a complete head *)
Lemma head_loop_ok fuel : forall h body t max st m,
  head_shape h -> nonempty_chunks (t_chunks t) -> t_stream t = drop m h ++ body ->
  0 <= m < zlen h -> 1 <= st -> st <= zlen h - m -> 4 <= m + st -> zlen h - m < Z.of_nat fuel ->
  (zlen h <= max -> exists t1, head_loop fuel t max st (take m h) = (Ok h, t1) /\
      t_stream t1 = body /\ nonempty_chunks (t_chunks t1) /\ t_err t1 = t_err t) /\
  (max < zlen h -> exists t1, head_loop fuel t max st (take m h) = (Err (-1), t1)).
Proof.
  induction fuel as [|f IH]; intros h body t max st m Hs Hne Hst Hm Hst1 Hst2 Hm4 Hf; [lia|].
  cbn [head_loop]. rewrite zlen_take by lia. replace (Z.min m (zlen h)) with m by lia.
  destruct (max - m <? st) eqn:El.
  { split; [lia|]. intros _. exists t. reflexivity. }
  assert (Hdl : zlen (drop m h) = zlen h - m) by (rewrite zlen_drop by lia; lia).
  destruct (read_fully_ok t st Hne ltac:(lia)) as [Hok _].
  destruct Hok as (t1 & -> & Hs1 & Hne1 & He1).
  { rewrite Hst, zlen_app. pose proof (zlen_nonneg body). lia. }
  rewrite Hst in Hs1 |- *. rewrite take_app_le by lia. rewrite drop_app_le, drop_drop in Hs1 by lia.
  assert (Hbuf : take m h ++ take st (drop m h) = take (m + st) h).
  { rewrite take_split by lia. reflexivity. }
  rewrite Hbuf.
  destruct (Z.eq_dec (m + st) (zlen h)) as [Hend|Hmid].
  - rewrite take_all by lia. rewrite head_next_end by assumption. split; [|lia].
    intros _. exists t1. rewrite Hs1. rewrite drop_all by lia. auto.
  - destruct (head_next_mid h (m + st) Hs) as (n & -> & Hn1 & Hn2); [lia|].
    destruct (IH h body t1 max n (m + st)) as [A B]; try assumption; try lia.
    { rewrite Hs1. replace (st + m) with (m + st) by lia. reflexivity. }
    split; [|exact B]. intros Hmx. destruct (A Hmx) as (t2 & E & S2 & N2 & R2).
    exists t2. rewrite E, S2, R2. auto.
Qed.

Lemma read_head_ok h body t max : head_shape h -> nonempty_chunks (t_chunks t) ->
  t_stream t = h ++ body ->
  (zlen h <= max -> exists t1, read_head t max = (Ok h, t1) /\
      t_stream t1 = body /\ nonempty_chunks (t_chunks t1) /\ t_err t1 = t_err t).
Proof.
  intros Hs Hne Hst Hmx. pose proof (head_len h Hs).
  destruct (head_loop_ok (S (Z.to_nat max)) h body t max 4 0) as [A _]; try assumption; try lia.
  destruct (A Hmx) as (t1 & E & R). exists t1. split; [exact E|exact R].
Qed.

(** ** Any input at all *)
Definition head_err (e : Z) : Z := if 0 <? e then - e else e.

Lemma head_next_any buf : 4 <= zlen buf ->
  head_next buf = Ok None \/ exists n, head_next buf = Ok (Some n) /\ 1 <= n <= 4.
Proof.
  intros Hl. unfold head_next, back.
  destruct (nthz_in_range buf (zlen buf - 1 - 0)) as [c0 ->]; [lia|].
  destruct (nthz_in_range buf (zlen buf - 1 - 1)) as [c1 ->]; [lia|].
  destruct (nthz_in_range buf (zlen buf - 1 - 2)) as [c2 ->]; [lia|].
  destruct (nthz_in_range buf (zlen buf - 1 - 3)) as [c3 ->]; [lia|].
  cbn [of_opt bind].
  destruct (negb (c0 =? LF) && negb (c0 =? CR)); [right; eexists; split; [reflexivity|lia]|].
  destruct (c0 =? CR).
  - destruct (c1 =? LF); right; eexists; (split; [reflexivity|]); [destruct (c2 =? CR)|]; lia.
  - destruct (negb (c2 =? LF)); [|left; reflexivity].
    destruct (negb (c3 =? CR)); [right; eexists; split; [reflexivity|lia]|left; reflexivity].
Qed.

Lemma head_loop_any fuel : forall t max st buf,
  nonempty_chunks (t_chunks t) -> 1 <= st -> 4 <= zlen buf + st -> 0 <= max ->
  max - zlen buf < Z.of_nat fuel -> zlen buf <= max ->
  exists x t1, head_loop fuel t max st buf = (x, t1) /\
    ((exists d, x = Ok (buf ++ d) /\ 4 <= zlen (buf ++ d) <= max /\ t_stream t = d ++ t_stream t1 /\
        head_next (buf ++ d) = Ok None) \/
     (x = Err (-1) /\ exists d, t_stream t = d ++ t_stream t1 /\ zlen buf + zlen d <= max) \/
     (x = Err (head_err (t_err t)) /\ t_stream t1 = [] /\ zlen buf + zlen (t_stream t) < max)).
Proof.
  induction fuel as [|f IH]; intros t max st buf Hne Hst Hb4 Hmx Hf Hle; [lia|].
  cbn [head_loop]. destruct (max - zlen buf <? st) eqn:El.
  { exists (Err (-1)), t. split; [reflexivity|]. right; left. split; [reflexivity|].
    exists []. split; [reflexivity|]. change (zlen (@nil Z)) with 0. lia. }
  destruct (read_fully_ok t st Hne ltac:(lia)) as [A B].
  destruct (Z_lt_le_dec (zlen (t_stream t)) st) as [Hsh|Hlo].
  - destruct (B Hsh) as (t1 & -> & Hs1). exists (Err (head_err (t_err t))), t1.
    split; [reflexivity|]. right; right. split; [reflexivity|]. split; [exact Hs1|lia].
  - destruct (A Hlo) as (t1 & -> & Hs1 & Hne1 & He1).
    set (d := take st (t_stream t)).
    assert (Hd : zlen d = st) by (unfold d; rewrite zlen_take by lia; lia).
    assert (Hstr : t_stream t = d ++ t_stream t1) by (unfold d; rewrite Hs1, take_drop; reflexivity).
    assert (Hbd : zlen (buf ++ d) = zlen buf + st) by (rewrite zlen_app; lia).
    destruct (head_next_any (buf ++ d)) as [Hn|(n & Hn & Hn1)]; [lia| |]; rewrite Hn.
    + exists (Ok (buf ++ d)), t1. split; [reflexivity|]. left. exists d. split; [reflexivity|]. split; [lia|]. split; assumption.
    + destruct (IH t1 max n (buf ++ d)) as (x & t2 & E & Hx); try assumption; try lia.
      exists x, t2. split; [exact E|]. destruct Hx as [(d2 & -> & C1 & C2 & C3)|[(-> & d2 & C1 & C2)|(-> & C1 & C2)]].
      * left. exists (d ++ d2). rewrite app_assoc. split; [reflexivity|]. split; [exact C1|]. split; [|exact C3].
        rewrite Hstr, C2, app_assoc. reflexivity.
      * right; left. split; [reflexivity|]. exists (d ++ d2). split; [rewrite Hstr, C1, app_assoc; reflexivity|].
        rewrite zlen_app. lia.
      * right; right. rewrite He1. split; [reflexivity|]. split; [exact C1|]. rewrite Hstr, zlen_app. lia.
Qed.


Lemma read_head_any t max : nonempty_chunks (t_chunks t) -> 0 <= max ->
  exists x t1, read_head t max = (x, t1) /\
    ((exists d, x = Ok d /\ 4 <= zlen d <= max /\ t_stream t = d ++ t_stream t1 /\ head_next d = Ok None) \/
     (x = Err (-1) /\ exists d, t_stream t = d ++ t_stream t1 /\ zlen d <= max) \/
     (x = Err (head_err (t_err t)) /\ t_stream t1 = [] /\ zlen (t_stream t) < max)).
Proof.
  intros Hne Hm. unfold read_head.
  destruct (head_loop_any (S (Z.to_nat max)) t max 4 []) as (x & t1 & E & H); try assumption;
    change (zlen (@nil Z)) with 0 in *; try lia.
  exists x, t1. split; [exact E|]. exact H.
Qed.

(** A reader that stops on (part of) a head has stopped at its end. *)
Lemma head_stop_at_end h d more : head_shape h -> h = d ++ more -> 4 <= zlen d -> head_next d = Ok None -> more = [].
Proof.
  intros Hs -> Hd Hn. destruct (Z.eq_dec (zlen more) 0) as [Hz|Hz]; [apply zlen_0_nil; exact Hz|].
  pose proof (zlen_nonneg more).
  destruct (head_next_mid (d ++ more) (zlen d) Hs) as (n & Hx & _).
  { rewrite zlen_app. lia. }
  rewrite take_app_exact in Hx by reflexivity. congruence.
Qed.

