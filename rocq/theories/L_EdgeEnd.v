(** Lemmas for C245. *)
From Verif Require Import Base M_IO S_IO L_IO M_Text M_Packet M_Flv S_Flv L_Flv M_Conf S_Url M_Url L_Url M_Host M_Http M_Https L_Https M_Upload S_Upload L_Upload M_Stream S_Http L_Http L_Http2 L_Http3 M_Edge L_Edge M_HttpConn S_HttpConn L_HttpConn S_HttpOut L_HttpOut S_EdgeOut L_EdgeOut S_HttpEnd L_HttpEnd S_EdgeEnd.

Lemma sub_refl s : sub s s.
Proof. induction s; constructor; assumption. Qed.
Lemma sub_front a b s : sub a s -> sub a (b ++ s).
Proof. intros H. induction b; [exact H|]. constructor. assumption. Qed.
Lemma sub_both d a s : sub a s -> sub (d ++ a) (d ++ s).
Proof. intros H. induction d; [exact H|]. constructor. assumption. Qed.
Lemma sub_back a s e : sub a s -> sub a (s ++ e).
Proof. intros H. induction H; cbn [app]; constructor; assumption. Qed.
Lemma sub_len a s : sub a s -> zlen a <= zlen s.
Proof. intros H. induction H; rewrite ?zlen_cons; try lia. change (zlen (@nil Z)) with 0. apply zlen_nonneg. Qed.
Lemma sub_bytes a s : sub a s -> bytes s -> bytes a.
Proof. intros H. induction H; intros B; [constructor| |]; inversion_clear B as [|? ? B1 B2]; [constructor; [exact B1|]|]; apply IHsub; exact B2. Qed.

(** ** Reading bodies *)
Lemma over_body_sub {A} (p : prog A) : reads_body p -> forall b t a, nonempty_chunks (t_chunks t) -> 0 <= hb_left b < 2 ^ 64 -> fst (run_plain (over_body p b) t) = Ok (Ok a) ->
  exists cs err, nonempty_chunks cs /\ fst (run_plain p (mktr cs err)) = Ok a /\ sub (concat cs) (t_stream t).
Proof.
  assert (T0 : forall c n, 0 < n -> t_read (mktr [] c) n = (Err c, mktr [] c)).
  { intros c n Hn. unfold t_read. replace (n <=? 0) with false by (symmetry; apply Z.leb_gt; lia). reflexivity. }
  intros H. induction H as [a0|n k ke Hn Hk IH Hke (n' & k' & ke' & E & Hn' & Hke')]; intros b t a Hne Hl; cbn [over_body].
  - intros [= ->]. exists [], 0. split; [constructor|]. split; [reflexivity|constructor].
  - assert (Z0 : forall c, ke c = PRet a -> exists cs err, nonempty_chunks cs /\ fst (run_plain (PRead n k ke) (mktr cs err)) = Ok a /\ sub (concat cs) (t_stream t)).
    { intros c Hc. exists [], c. split; [constructor|]. cbn [run_plain]. rewrite T0 by exact Hn. rewrite Hc. split; [reflexivity|constructor]. }
    rewrite run_plain_bind, rq_prog_run. destruct (rq_total b t n Hne Hl) as (x & b1 & t1 & Er & N1 & L1 & Hx). rewrite Er. destruct Hx as [(d & ->)|(c & ->)].
    + destruct (rq_slice _ _ _ _ _ _ Hne Er) as [((x & y & Es) & Hd & Hp)|(-> & He)].
      * intros R. destruct (IH d ltac:(lia) b1 t1 a N1 L1 R) as (cs & err & C1 & C2 & C3). exists (d :: cs), err.
        split; [constructor; [intros ->; change (zlen (@nil Z)) with 0 in Hp; lia|exact C1]|]. split.
        { cbn [run_plain]. unfold t_read. cbn [t_chunks t_err]. replace (n <=? 0) with false by (symmetry; apply Z.leb_gt; lia). replace (zlen d <=? n) with true by (symmetry; apply Z.leb_le; lia). exact C2. }
        cbn [concat]. rewrite Es. apply sub_front, sub_both, sub_front, C3.
      * rewrite E. cbn [over_body]. rewrite (rq_eof _ _ He). cbn [pbind]. rewrite Hke'. destruct (Hke ERROR_HTTP_RES_EOF) as (a1 & Ha). rewrite Ha. cbn. intros [= ->]. exact (Z0 _ Ha).
    + destruct (Hke c) as (a1 & Ha). rewrite Ha. cbn. intros [= ->]. exact (Z0 _ Ha).
Qed.
Lemma read_fully_loop_slice f : forall t n acc d t1, read_fully_loop f t n acc = (Ok d, t1) -> exists y, d = acc ++ y /\ t_stream t = y ++ t_stream t1.
Proof.
  induction f as [|f IH]; intros t n acc d t1; cbn [read_fully_loop]; [discriminate|]. destruct (t_read t (n - zlen acc)) as [[d0|c| |] t2] eqn:E; try discriminate.
  destruct (t_read_slice _ _ _ _ E) as (_ & S). match goal with |- (if ?b then _ else _) = _ -> _ => destruct b end.
  - intros H. destruct (IH _ _ _ _ _ H) as (y & -> & S2). exists (d0 ++ y). rewrite S, S2, <- !app_assoc. auto.
  - intros [= <- <-]. eauto.
Qed.
Lemma up_slice b t n d b1 t1 : nonempty_chunks (t_chunks t) -> 0 <= hb_left b < 2 ^ 64 -> 0 < n -> up_read b t n = (Ok d, b1, t1) ->
  (exists x y, t_stream t = x ++ d ++ y ++ t_stream t1) /\ zlen d <= n /\ 0 < zlen d \/ d = [] /\ hb_eof b1 = true.
Proof.
  intros Hn Hl Hp H. unfold up_read, hb_read in H. destruct (hb_eof b); [discriminate|].
  assert (D : forall b t, nonempty_chunks (t_chunks t) -> 0 <= hb_left b -> (hb_left b = 0 -> hb_size b = 0) -> up_data b t n = (Ok d, b1, t1) -> (exists x y, t_stream t = x ++ d ++ y ++ t_stream t1) /\ zlen d <= n /\ 0 < zlen d \/ d = [] /\ hb_eof b1 = true).
  { clear - Hp. intros b t Hn Hl Hz H. unfold up_data in H. destruct (Z.min (hb_left b) n =? 0) eqn:E0.
    - destruct (chunk_tail_slice _ _ _ _ _ _ H) as (-> & _ & E). right. split; [reflexivity|apply E]. cbn [hb_size hb_set_left]. apply Hz. lia.
    - destruct (read_fully t (Z.min (hb_left b) n)) as [[d0|c| |] t2] eqn:E; try discriminate H. destruct (chunk_tail_slice _ _ _ _ _ _ H) as (-> & (y & Ey) & _).
      assert (0 <= Z.min (hb_left b) n) as Hm by lia. destruct (read_fully_ne _ _ _ _ Hn Hm E) as (_ & [(d1 & [= <-] & Hd)|(e & ?)]); [|discriminate].
      destruct (read_fully_loop_slice _ _ _ _ _ _ E) as (d1 & -> & S). cbn [app] in *.
      left. split; [exists [], y; rewrite S, Ey; reflexivity|lia]. }
  destruct (hb_chunked b).
  - unfold read_chunked in H. destruct (hb_left b =? 0) eqn:E0; [|apply (D b t Hn ltac:(lia) ltac:(lia) H)]. unfold read_chunk_len in H.
    destruct (size_line_any 34 t [] Hn) as (x0 & t2 & E & N & Hx0); [change (zlen (@nil Z)) with 0; lia|change (zlen (@nil Z)) with 0; lia|]. rewrite E in H.
    destruct Hx0 as [(l & -> & Hll)|(e & ->)]; [|discriminate H].
    pose proof (run_ew (sl_prog 34 []) t) as (x1 & W). rewrite sl_prog_run, E in W. cbn [snd] in W.
    destruct (size_of_line_any l Hll) as [(m & Em & Hm)|(e & Em)]; rewrite Em in H; [|discriminate H].
    destruct (D (mkhb (hb_chunked b) (hb_cl b) (hb_eof b) (hb_nread b) m m) t2 N (proj1 Hm) (fun e => e) H) as [((x & y & E1) & K)|K]; [left|right; exact K]. split; [|exact K]. exists (x1 ++ x), y. rewrite W, E1, <- app_assoc. reflexivity.
  - match type of H with context [t_read t ?m] => assert (m <= n) as Hm by (destruct (0 <=? hb_cl b); lia); destruct (t_read t m) as [[d0|c| |] t2] eqn:E end; try discriminate H. injection H as -> _ ->.
    destruct (t_read_slice _ _ _ _ E) as (L & S). destruct (t_read_ne _ _ _ _ Hn E) as [_ [(d1 & [= <-] & Hd & _)|(c & ?)]]; [|discriminate]. left. split; [exists [], []; exact S|lia].
Qed.
Lemma over_up_sub {A} (p : prog A) : reads_body p -> forall b t a, nonempty_chunks (t_chunks t) -> 0 <= hb_left b < 2 ^ 64 -> fst (run_plain (over_up p b) t) = Ok (Ok a) ->
  exists cs err, nonempty_chunks cs /\ fst (run_plain p (mktr cs err)) = Ok a /\ sub (concat cs) (t_stream t).
Proof.
  assert (T0 : forall c n, 0 < n -> t_read (mktr [] c) n = (Err c, mktr [] c)).
  { intros c n Hn. unfold t_read. replace (n <=? 0) with false by (symmetry; apply Z.leb_gt; lia). reflexivity. }
  intros H. induction H as [a0|n k ke Hn Hk IH Hke (n' & k' & ke' & E & Hn' & Hke')]; intros b t a Hne Hl; cbn [over_up].
  - intros [= ->]. exists [], 0. split; [constructor|]. split; [reflexivity|constructor].
  - assert (Z0 : forall c, ke c = PRet a -> exists cs err, nonempty_chunks cs /\ fst (run_plain (PRead n k ke) (mktr cs err)) = Ok a /\ sub (concat cs) (t_stream t)).
    { intros c Hc. exists [], c. split; [constructor|]. cbn [run_plain]. rewrite T0 by exact Hn. rewrite Hc. split; [reflexivity|constructor]. }
    rewrite run_plain_bind, up_prog_run. destruct (up_total b t n Hne Hl) as (x & b1 & t1 & Er & N1 & L1 & Hx). rewrite Er. destruct Hx as [(d & ->)|(c & ->)].
    + destruct (up_slice _ _ _ _ _ _ Hne Hl Hn Er) as [((x & y & Es) & Hd & Hp)|(-> & He)].
      * intros R. destruct (IH d ltac:(lia) b1 t1 a N1 L1 R) as (cs & err & C1 & C2 & C3). exists (d :: cs), err.
        split; [constructor; [intros ->; change (zlen (@nil Z)) with 0 in Hp; lia|exact C1]|]. split.
        { cbn [run_plain]. unfold t_read. cbn [t_chunks t_err]. replace (n <=? 0) with false by (symmetry; apply Z.leb_gt; lia). replace (zlen d <=? n) with true by (symmetry; apply Z.leb_le; lia). exact C2. }
        cbn [concat]. rewrite Es. apply sub_front, sub_both, sub_front, C3.
      * rewrite E. cbn [over_up]. rewrite (up_eof _ _ He). cbn [pbind]. rewrite Hke'. destruct (Hke ERROR_HTTP_RES_EOF) as (a1 & Ha). rewrite Ha. cbn. intros [= ->]. exact (Z0 _ Ha).
    + destruct (Hke c) as (a1 & Ha). rewrite Ha. cbn. intros [= ->]. exact (Z0 _ Ha).
Qed.
(** ** FLV *)
Lemma spec_flv_all_count cap e fuel : forall s, 16 * zlen (fst (spec_flv_all fuel cap e s)) <= zlen s.
Proof.
  induction fuel as [|f IH]; intros s; cbn [spec_flv_all]; [apply zlen_nonneg|]. pose proof (zlen_nonneg s).
  destruct (spec_flv_next cap e s) as [p rest|c|] eqn:E; [|exact H|exact H].
  destruct (spec_flv_next_rest _ _ _ _ _ E) as (seg & -> & Hl). specialize (IH rest). destruct (spec_flv_all f cap e rest) as [ps x]. cbn [fst] in *. rewrite zlen_cons, zlen_app. lia.
Qed.
Lemma flv_demux_made fuel fill t : 15 <= zlen fill -> zlen fill < 2 ^ 62 -> nonempty_chunks (t_chunks t) -> bytes (t_stream t) ->
  made_of fuel (zlen fill) (t_stream t) (fst (fst (snd (flv_demux fuel (br_new fill t))))) /\ 16 * zlen (fst (fst (snd (flv_demux fuel (br_new fill t))))) <= zlen (t_stream t) /\
  (zlen (t_stream t) < Z.of_nat fuel -> snd (fst (snd (flv_demux fuel (br_new fill t)))) <> Fuel).
Proof.
  intros H1 H2 Hn Hb.
  assert (Z0 : forall x : list pkt * res unit, fst x = [] -> made_of fuel (zlen fill) (t_stream t) (fst x) /\ 16 * zlen (fst x) <= zlen (t_stream t)).
  { intros x ->. split; [left; reflexivity|]. change (zlen (@nil pkt)) with 0. pose proof (zlen_nonneg (t_stream t)). lia. }
  assert (G : made_of fuel (zlen fill) (t_stream t) (fst (fst (snd (flv_demux fuel (br_new fill t))))) /\ 16 * zlen (fst (fst (snd (flv_demux fuel (br_new fill t))))) <= zlen (t_stream t)).
  { set (h := take 9 (t_stream t)). set (s := drop 9 (t_stream t)).
    assert (Es : t_stream t = h ++ s) by (symmetry; apply take_drop).
    pose proof (br_new_at fill t H2 Hn) as A.
    destruct (Z_lt_ge_dec (zlen (t_stream t)) 9) as [Hs|Hs].
    - destruct (at_acquire _ _ _ _ _ 9 A ltac:(lia)) as (_ & B & _). destruct (B ltac:(lia) ltac:(lia)) as (r1 & E). apply Z0. unfold flv_demux, flv_read_header, mbind. rewrite E. reflexivity.
    - assert (Hh : zlen h = 9) by (unfold h; rewrite zlen_take by lia; lia).
      destruct (eqb_list (take 3 h) [0x46; 0x4C; 0x56]) eqn:Em.
      + apply eqb_list_spec in Em. assert (Bs : bytes s) by (rewrite Es in Hb; apply Forall_app in Hb as (_ & Hb); exact Hb).
        destruct (flv_demux_stream fill t h s fuel H1 H2 Hn Es Hh Em Bs) as (hp & x & r1 & -> & _ & Hx). cbn [snd fst]. split.
        * right. exists (t_err t), h, s. rewrite Es. split; [apply sub_refl|auto].
        * pose proof (spec_flv_all_count (zlen fill) (t_err t) fuel s). rewrite Es, zlen_app. lia.
      + apply Z0. destruct (at_acquire _ _ _ _ _ 9 A ltac:(lia)) as (_ & _ & B). destruct (B ltac:(lia) ltac:(lia)) as (r1 & E & A1).
        unfold flv_demux, flv_read_header, mbind. rewrite E. destruct (at_rdbytes _ _ _ _ _ 9 A1 ltac:(lia)) as [E1 _]. rewrite E1. fold h.
        clearbody h. do 9 (destruct h as [|? h]; [cbn in Hh; lia|]). change (take 3 (z :: z0 :: z1 :: z2 :: z3 :: z4 :: z5 :: z6 :: z7 :: h)) with [z; z0; z1] in Em.
        destruct ((z =? 0x46) && (z0 =? 0x4C) && (z1 =? 0x56)) eqn:Ez; [|reflexivity]. exfalso. apply andb_prop in Ez as (Ez & Ez3). apply andb_prop in Ez as (Ez1 & Ez2).
        apply Z.eqb_eq in Ez1, Ez2, Ez3. subst. discriminate Em. }
  destruct G as (G1 & G2). split; [exact G1|]. split; [exact G2|]. intros Hf. apply flv_demux_ends; assumption.
Qed.
Lemma sub_trans a b c : sub a b -> sub b c -> sub a c.
Proof.
  intros H1 H2. revert a H1. induction H2 as [s|x b c H IH|x b c H IH]; intros a H1.
  - inversion H1. constructor.
  - inversion H1; subst; constructor; auto.
  - constructor. auto.
Qed.
Lemma made_sub fuel cap a s ps : sub a s -> made_of fuel cap a ps -> made_of fuel cap s ps.
Proof. intros H [->|(e & h & b & K & R)]; [left; reflexivity|right]. exists e, h, b. split; [exact (sub_trans _ _ _ K H)|exact R]. Qed.
(** What the reader gives on a connection bringing bytes of [s] in their order. *)
Lemma flv_made_sub fuel fill cs err s ps x : 15 <= zlen fill < 2 ^ 62 -> nonempty_chunks cs -> sub (concat cs) s -> bytes s ->
  fst (run_plain (flv_decode_prog fuel fill) (mktr cs err)) = Ok (ps, x) ->
  made_of fuel (zlen fill) s ps /\ 16 * zlen ps <= zlen s /\ (zlen s < Z.of_nat fuel -> x <> Fuel).
Proof.
  intros Hc N S B R. rewrite flv_decode_same in R. injection R as R.
  destruct (flv_demux_made fuel fill (mktr cs err) ltac:(lia) ltac:(lia) N (sub_bytes _ _ S B)) as (A1 & A2 & A3). rewrite R in A1, A2, A3. cbn [fst snd] in *.
  unfold t_stream in *. cbn [t_chunks] in *. pose proof (sub_len _ _ S). split; [exact (made_sub _ _ _ _ _ S A1)|]. split; [lia|]. intros. apply A3. lia.
Qed.
Lemma sub_payloads segs ps : Forall2 flv_segment segs ps -> sub (concat (map p_data ps)) (concat segs).
Proof.
  induction 1 as [|seg p segs ps (hd & pf & -> & _) _ IH]; cbn [map concat]; [constructor|]. rewrite <- !app_assoc. apply sub_front, sub_front, sub_both, IH.
Qed.
