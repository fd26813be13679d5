(** Proofs about the I/O layer. *)
From Verif Require Import Base M_IO S_IO.

Lemma t_read_ok t size : nonempty_chunks (t_chunks t) -> 0 < size ->
  (t_chunks t = [] /\ t_read t size = (Err (t_err t), t)) \/
  (exists d t1, t_read t size = (Ok d, t1) /\ d <> [] /\ zlen d <= size /\
     t_stream t = d ++ t_stream t1 /\ nonempty_chunks (t_chunks t1) /\ t_err t1 = t_err t).
Proof.
  intros Hne Hs. unfold t_read. destruct (size <=? 0) eqn:E; [lia|].
  unfold t_stream. destruct (t_chunks t) as [|c cs] eqn:Ec; [left; auto|right].
  inversion_clear Hne as [|? ? Hc Hcs].
  destruct (zlen c <=? size) eqn:El.
  - exists c, (mktr cs (t_err t)). cbn [t_chunks t_err concat]. repeat split; try assumption. lia.
  - exists (take size c), (mktr (drop size c :: cs) (t_err t)). cbn [t_chunks t_err concat].
    assert (zlen (take size c) = size) by (rewrite zlen_take by lia; lia).
    assert (0 < zlen (drop size c)) by (rewrite zlen_drop by lia; lia).
    repeat split.
    + intros Hn; rewrite Hn in *; cbn in *; lia.
    + lia.
    + rewrite app_assoc, take_drop; reflexivity.
    + constructor; [|exact Hcs]. intros Hn; rewrite Hn in *; cbn in *; lia.
Qed.

Lemma concat_nonempty_nil (cs : list (list Z)) : nonempty_chunks cs -> concat cs = [] -> cs = [].
Proof.
  intros Hne. destruct cs as [|c cs]; [reflexivity|]. cbn. intros H.
  apply app_eq_nil in H as [H _]. inversion_clear Hne; congruence.
Qed.

Lemma read_fully_loop_ok fuel : forall t size acc,
  nonempty_chunks (t_chunks t) -> zlen acc < size -> size - zlen acc < Z.of_nat fuel ->
  (size - zlen acc <= zlen (t_stream t) ->
     exists t1, read_fully_loop fuel t size acc = (Ok (acc ++ take (size - zlen acc) (t_stream t)), t1) /\
       t_stream t1 = drop (size - zlen acc) (t_stream t) /\ nonempty_chunks (t_chunks t1) /\ t_err t1 = t_err t) /\
  (zlen (t_stream t) < size - zlen acc ->
     exists t1, read_fully_loop fuel t size acc = (Err (t_err t), t1) /\ t_stream t1 = []).
Proof.
  induction fuel as [|f IH]; intros t size acc Hne Hlt Hf.
  - pose proof (zlen_nonneg acc). lia.
  - cbn [read_fully_loop].
    destruct (t_read_ok t (size - zlen acc) Hne) as [[Hnil ->]|(d & t1 & -> & Hd & Hdl & Hst & Hne1 & He1)];
      [lia| |].
    + assert (Hs : t_stream t = []) by (unfold t_stream; rewrite Hnil; reflexivity).
      rewrite Hs, zlen_nil. split; [lia|]. intros _. exists t. auto.
    + assert (0 < zlen d).
      { destruct d; [congruence|]. rewrite zlen_cons; pose proof (zlen_nonneg d); lia. }
      rewrite zlen_app. rewrite Hst, zlen_app.
      destruct (zlen acc + zlen d <? size) eqn:E.
      * destruct (IH t1 size (acc ++ d)) as [IH1 IH2]; [assumption|rewrite zlen_app; lia|rewrite zlen_app; lia|].
        rewrite zlen_app in IH1, IH2. split; intros Hsz.
        -- destruct IH1 as (t2 & -> & H2 & H3 & H4); [lia|].
           exists t2. rewrite H2, H4, He1.
           rewrite take_app_ge, drop_app_ge by lia. rewrite <- app_assoc.
           replace (size - zlen acc - zlen d) with (size - (zlen acc + zlen d)) by lia. auto.
        -- destruct IH2 as (t2 & -> & H2); [lia|]. exists t2. rewrite He1. auto.
      * assert (zlen d = size - zlen acc) by lia. split; intros Hsz.
        -- exists t1. rewrite take_app_exact, drop_app_exact by lia. auto.
        -- pose proof (zlen_nonneg (t_stream t1)). lia.
Qed.

Lemma read_fully_ok t size : nonempty_chunks (t_chunks t) -> 0 < size ->
  (size <= zlen (t_stream t) ->
     exists t1, read_fully t size = (Ok (take size (t_stream t)), t1) /\
       t_stream t1 = drop size (t_stream t) /\ nonempty_chunks (t_chunks t1) /\ t_err t1 = t_err t) /\
  (zlen (t_stream t) < size ->
     exists t1, read_fully t size = (Err (t_err t), t1) /\ t_stream t1 = []).
Proof.
  intros Hne Hs. unfold read_fully.
  pose proof (read_fully_loop_ok (S (Z.to_nat size)) t size [] Hne) as H.
  rewrite zlen_nil, Z.sub_0_r in H. apply H; lia.
Qed.

(** ** Buffered reader *)

Definition br_ok (r : breader) : Prop :=
  0 <= ab_ptr (br_buf r) <= ab_end (br_buf r) /\ ab_end (br_buf r) <= ab_cap (br_buf r) /\
  ab_cap (br_buf r) < 2 ^ 62 /\
  match br_io r with Some t => nonempty_chunks (t_chunks t) | None => True end.
(** Bytes buffered but not consumed, and the whole remaining stream. *)
Definition br_pending (r : breader) : list Z :=
  take (ab_end (br_buf r) - ab_ptr (br_buf r)) (drop (ab_ptr (br_buf r)) (ab_data (br_buf r))).
Definition br_stream (r : breader) : list Z :=
  br_pending r ++ match br_io r with Some t => t_stream t | None => [] end.
Definition br_err (r : breader) : Z := match br_io r with Some t => t_err t | None => ERROR_IO_EOF end.

Lemma zlen_pending r : br_ok r -> zlen (br_pending r) = ab_end (br_buf r) - ab_ptr (br_buf r).
Proof.
  intros (H1 & H2 & _). unfold br_pending, ab_cap in *. rewrite zlen_take, zlen_drop by lia. lia.
Qed.

Lemma acquire_loop_ok fuel : forall r n,
  br_ok r -> n <= ab_cap (br_buf r) - ab_ptr (br_buf r) ->
  ab_end (br_buf r) - ab_ptr (br_buf r) < n ->
  n - (ab_end (br_buf r) - ab_ptr (br_buf r)) < Z.of_nat fuel ->
  exists x r1, acquire_loop fuel r n = (x, r1) /\
    br_ok r1 /\ br_stream r1 = br_stream r /\ ab_cap (br_buf r1) = ab_cap (br_buf r) /\
    br_err r1 = br_err r /\ ab_rw (br_buf r1) = ab_rw (br_buf r) /\
    (n <= zlen (br_stream r) -> x = Ok tt /\ n <= ab_end (br_buf r1) - ab_ptr (br_buf r1)) /\
    (zlen (br_stream r) < n -> x = Err (br_err r)).
Proof.
  induction fuel as [|f IH]; intros r n Hok Hcap Hsz Hf; [lia|].
  destruct Hok as (Hp & He & Hb & Hio). cbn [acquire_loop].
  assert (Hpl := zlen_pending r (conj Hp (conj He (conj Hb Hio)))).
  unfold br_err in *. destruct (br_io r) as [t|] eqn:Eio.
  2:{ exists (Err ERROR_IO_EOF), r. split; [reflexivity|].
      split; [unfold br_ok; rewrite Eio; auto|]. repeat split; try reflexivity.
      - rewrite Eio. reflexivity.
      - unfold br_stream in H. rewrite Eio, app_nil_r in H. lia.
      - unfold br_stream in H. rewrite Eio, app_nil_r in H. lia. }
  unfold ab_remain, u64. rewrite Z.mod_small by lia.
  destruct (t_read_ok t (ab_cap (br_buf r) - ab_end (br_buf r)) Hio)
    as [[Hnil ->]|(d & t1 & -> & Hd & Hdl & Hst & Hne1 & He1)]; [lia| |].
  - exists (Err (t_err t)), (mkbr (br_buf r) (Some t)). split; [reflexivity|].
    assert (Hs : t_stream t = []) by (unfold t_stream; rewrite Hnil; reflexivity).
    split; [unfold br_ok; cbn [br_buf br_io]; auto|].
    cbn [br_buf br_io]. unfold br_stream; cbn [br_io]. rewrite Eio.
    repeat split; try reflexivity.
    + rewrite zlen_app, Hs, zlen_nil, Hpl in H. lia.
    + rewrite zlen_app, Hs, zlen_nil, Hpl in H. lia.
  - assert (0 < zlen d).
    { destruct d; [congruence|]. rewrite zlen_cons; pose proof (zlen_nonneg d); lia. }
    unfold ab_store. destruct ((0 <=? ab_end (br_buf r)) && (ab_end (br_buf r) + zlen d <=? ab_cap (br_buf r))) eqn:E;
      [|lia]. cbn [ab_data ab_ptr ab_end ab_rw].
    set (data' := take (ab_end (br_buf r)) (ab_data (br_buf r)) ++ d ++
                  drop (ab_end (br_buf r) + zlen d) (ab_data (br_buf r))).
    set (r1 := mkbr (mkab data' (ab_ptr (br_buf r)) (ab_end (br_buf r) + zlen d) (ab_rw (br_buf r))) (Some t1)).
    assert (Hcap' : zlen data' = ab_cap (br_buf r)).
    { unfold data', ab_cap in *. rewrite !zlen_app, zlen_take, zlen_drop by lia. lia. }
    assert (Hok1 : br_ok r1).
    { unfold br_ok, r1; cbn [br_buf br_io ab_ptr ab_end]. unfold ab_cap at 1 2; cbn [ab_data].
      rewrite Hcap'. repeat split; try lia. exact Hne1. }
    assert (Hpend : br_pending r1 = br_pending r ++ d).
    { unfold br_pending, r1; cbn [br_buf ab_data ab_ptr ab_end]. unfold data'. unfold ab_cap in *.
      rewrite drop_app_le by (rewrite zlen_take by lia; lia).
      replace (ab_end (br_buf r) + zlen d - ab_ptr (br_buf r))
        with ((ab_end (br_buf r) - ab_ptr (br_buf r)) + zlen d) by lia.
      assert (Hdt : drop (ab_ptr (br_buf r)) (take (ab_end (br_buf r)) (ab_data (br_buf r))) =
              take (ab_end (br_buf r) - ab_ptr (br_buf r)) (drop (ab_ptr (br_buf r)) (ab_data (br_buf r)))).
      { unfold take, drop. rewrite skipn_firstn_comm. f_equal; lia. }
      rewrite Hdt. rewrite app_assoc. apply take_app_exact.
      rewrite zlen_app, zlen_take, zlen_drop by lia. lia. }
    assert (Hstr : br_stream r1 = br_stream r).
    { unfold br_stream. rewrite Hpend, Eio. cbn [br_io r1]. rewrite Hst, <- app_assoc. reflexivity. }
    assert (Hsize : ab_size (br_buf r1) = ab_end (br_buf r) - ab_ptr (br_buf r) + zlen d).
    { unfold ab_size, r1, u64; cbn [br_buf ab_end ab_ptr]. rewrite Z.mod_small; lia. }
    rewrite Hsize.
    destruct (ab_end (br_buf r) - ab_ptr (br_buf r) + zlen d <? n) eqn:En.
    + destruct (IH r1 n Hok1) as (x & r2 & Hl & Hok2 & Hs2 & Hc2 & He2 & Hw2 & H2a & H2b).
      * unfold r1, ab_cap; cbn [br_buf ab_data ab_ptr]. rewrite Hcap'. lia.
      * unfold r1; cbn [br_buf ab_end ab_ptr]. lia.
      * unfold r1; cbn [br_buf ab_end ab_ptr]. lia.
      * exists x, r2. split; [exact Hl|]. split; [exact Hok2|].
        unfold r1, br_err, ab_cap in Hc2, He2, Hw2; cbn [br_buf br_io ab_data ab_rw] in Hc2, He2, Hw2.
        rewrite Hs2, Hstr. split; [reflexivity|]. unfold ab_cap; rewrite Hc2, Hcap'.
        split; [reflexivity|]. unfold br_err; rewrite He2, He1. split; [reflexivity|].
        split; [exact Hw2|]. rewrite Hstr in H2a, H2b. split; [exact H2a|].
        intros Hlt. specialize (H2b Hlt). unfold br_err, r1 in H2b; cbn [br_io] in H2b. congruence.
    + exists (Ok tt), r1. split; [reflexivity|]. split; [exact Hok1|]. split; [exact Hstr|].
      unfold r1 at 1, ab_cap at 1; cbn [br_buf ab_data]. rewrite Hcap'.
      unfold r1; cbn [br_buf br_io ab_rw ab_end ab_ptr].
      repeat split; try lia; try exact He1.
      intros H0. exfalso. unfold br_stream in H0. rewrite Eio, zlen_app in H0. rewrite Hst, zlen_app in H0.
      pose proof (zlen_nonneg (t_stream t1)). lia.
Qed.

Lemma rewind_ok r b : br_ok r -> ab_rewind (br_buf r) = Ok b ->
  br_ok (mkbr b (br_io r)) /\ br_stream (mkbr b (br_io r)) = br_stream r /\
  ab_cap b = ab_cap (br_buf r) /\ ab_ptr b = 0 /\ ab_end b = ab_end (br_buf r) - ab_ptr (br_buf r) /\
  ab_rw b = ab_rw (br_buf r).
Proof.
  intros Hok H. pose proof (zlen_pending r Hok) as Hpl.
  destruct Hok as (Hp & He & Hb & Hio). unfold ab_rewind in H. unfold ab_cap in *.
  rewrite slice_some in H by lia. cbn [of_opt bind] in H. injection H as <-.
  cbn [ab_data ab_ptr ab_end ab_rw].
  fold (br_pending r) in *.
  assert (Hl : zlen (br_pending r ++ drop (zlen (br_pending r)) (ab_data (br_buf r))) = zlen (ab_data (br_buf r))).
  { rewrite zlen_app, zlen_drop, Hpl by lia. lia. }
  repeat split; try lia; unfold ab_cap; cbn [br_buf br_io ab_data ab_ptr ab_end]; try lia; try exact Hio.
  unfold br_stream at 1. cbn [br_io]. f_equal.
  unfold br_pending at 1. cbn [br_buf ab_data ab_ptr ab_end].
  rewrite (drop_0 0) by lia. rewrite Z.sub_0_r. rewrite take_app_exact by lia. reflexivity.
Qed.

(** Specification of acquire: the outcome depends on the stream only. *)
Lemma acquire_ok r n : br_ok r -> 0 <= n -> ab_rw (br_buf r) = true ->
  exists x r1, acquire r n = (x, r1) /\
    br_ok r1 /\ br_stream r1 = br_stream r /\ ab_cap (br_buf r1) = ab_cap (br_buf r) /\
    br_err r1 = br_err r /\ ab_rw (br_buf r1) = true /\
    (n <= ab_cap (br_buf r) -> n <= zlen (br_stream r) ->
       x = Ok tt /\ n <= ab_end (br_buf r1) - ab_ptr (br_buf r1)) /\
    (n <= ab_cap (br_buf r) -> zlen (br_stream r) < n -> x = Err (br_err r)) /\
    (ab_cap (br_buf r) < n -> x = Err ERROR_IO_BUFFER_FULL).
Proof.
  intros Hok Hn Hrw. pose proof (zlen_pending r Hok) as Hpl.
  assert (Hsz : ab_size (br_buf r) = ab_end (br_buf r) - ab_ptr (br_buf r)).
  { destruct Hok as (Hp & He & Hb & _). unfold ab_size, u64. apply Z.mod_small; lia. }
  unfold acquire. rewrite Hsz.
  destruct (n <=? ab_end (br_buf r) - ab_ptr (br_buf r)) eqn:E1.
  - exists (Ok tt), r. split; [reflexivity|]. repeat (split; [first [exact Hok|reflexivity|exact Hrw]|]).
    split; [|split].
    + intros _ _. split; [reflexivity|lia].
    + unfold br_stream. rewrite zlen_app, Hpl.
      pose proof (zlen_nonneg (match br_io r with Some t => t_stream t | None => [] end)). lia.
    + destruct Hok as (Hp & He & _). lia.
  - unfold ab_cap_size. rewrite Hrw.
    destruct (ab_cap (br_buf r) <? n) eqn:E2.
    + exists (Err ERROR_IO_BUFFER_FULL), r. split; [reflexivity|].
      repeat (split; [first [exact Hok|reflexivity|exact Hrw]|]).
      split; [lia|split; [lia|reflexivity]].
    + assert (Hnr : ab_norewind (br_buf r) = ab_cap (br_buf r) - ab_ptr (br_buf r)).
      { destruct Hok as (Hp & He & Hb & _). unfold ab_norewind, u64. apply Z.mod_small; lia. }
      rewrite Hnr.
      destruct (ab_cap (br_buf r) - ab_ptr (br_buf r) <? n) eqn:E3.
      * assert (Hrwd : exists b, ab_rewind (br_buf r) = Ok b).
        { unfold ab_rewind. destruct Hok as (Hp & He & Hb & _). unfold ab_cap in *.
          rewrite slice_some by lia. cbn [of_opt bind]. eexists; reflexivity. }
        destruct Hrwd as [b Hbw]. rewrite Hbw.
        destruct (rewind_ok r b Hok Hbw) as (Hok' & Hst & Hcp & Hpt & Hen & Hrw').
        assert (Hnr' : ab_norewind b = ab_cap b).
        { destruct Hok as (_ & _ & Hb & _). unfold ab_norewind, u64. rewrite Hpt, Z.sub_0_r.
          apply Z.mod_small. pose proof (zlen_nonneg (ab_data b)); unfold ab_cap in *; lia. }
        rewrite Hnr'. destruct (ab_cap b <? n) eqn:E4; [lia|].
        destruct (acquire_loop_ok (S (Z.to_nat n)) (mkbr b (br_io r)) n Hok')
          as (x & r1 & Hl & H1 & H2 & H3 & H4 & H5 & H6 & H7).
        -- cbn [br_buf]; lia.
        -- cbn [br_buf]; lia.
        -- cbn [br_buf]; destruct Hok as (Hp & _); lia.
        -- exists x, r1. rewrite Hst in *. cbn [br_buf] in *.
           split; [exact Hl|]. split; [exact H1|]. split; [exact H2|]. split; [congruence|].
           split; [exact H4|]. split; [congruence|]. split; [intros _; exact H6|].
           split; [intros _; exact H7|lia].
      * rewrite Hnr. rewrite E3.
        assert (Heta : mkbr (br_buf r) (br_io r) = r) by (destruct r; reflexivity).
        rewrite Heta.
        destruct (acquire_loop_ok (S (Z.to_nat n)) r n Hok)
          as (x & r1 & Hl & H1 & H2 & H3 & H4 & H5 & H6 & H7).
        -- lia.
        -- lia.
        -- destruct Hok as (Hp & _); lia.
        -- exists x, r1.
           split; [exact Hl|]. split; [exact H1|]. split; [exact H2|]. split; [congruence|].
           split; [exact H4|]. split; [congruence|]. split; [intros _; exact H6|].
           split; [intros _; exact H7|lia].
Qed.

(** Consuming within the buffered part. *)
Lemma rdbytes_ok r k : br_ok r -> 0 <= k <= ab_end (br_buf r) - ab_ptr (br_buf r) ->
  rdbytes r k = Ok (take k (br_stream r), rdskip r k) /\
  br_ok (rdskip r k) /\ br_stream (rdskip r k) = drop k (br_stream r) /\
  ab_cap (br_buf (rdskip r k)) = ab_cap (br_buf r) /\ br_err (rdskip r k) = br_err r /\
  ab_rw (br_buf (rdskip r k)) = ab_rw (br_buf r) /\
  ab_end (br_buf (rdskip r k)) - ab_ptr (br_buf (rdskip r k)) = ab_end (br_buf r) - ab_ptr (br_buf r) - k.
Proof.
  intros Hok Hk. pose proof (zlen_pending r Hok) as Hpl.
  destruct Hok as (Hp & He & Hb & Hio). unfold ab_cap in *.
  unfold rdbytes. rewrite slice_some by lia.
  split.
  - f_equal. f_equal. unfold br_stream. rewrite take_app_le by lia.
    unfold br_pending. rewrite take_take. f_equal. lia.
  - unfold rdskip, ab_skip, br_ok, br_stream, br_pending, br_err, ab_cap; cbn [br_buf br_io ab_data ab_ptr ab_end ab_rw].
    repeat split; try lia; try exact Hio.
    rewrite drop_app_le by (unfold br_pending in Hpl; lia). f_equal.
    rewrite (Z.add_comm (ab_ptr (br_buf r)) k) at 2.
    rewrite <- drop_drop by lia.
    unfold take, drop. rewrite skipn_firstn_comm. f_equal. lia.
Qed.

Lemma br_new_ok fill t : zlen fill < 2 ^ 62 -> nonempty_chunks (t_chunks t) ->
  br_ok (br_new fill t) /\ br_stream (br_new fill t) = t_stream t /\
  ab_cap (br_buf (br_new fill t)) = zlen fill /\ br_err (br_new fill t) = t_err t /\
  ab_rw (br_buf (br_new fill t)) = true.
Proof.
  intros Hf Hne. unfold br_new, br_ok, br_stream, br_pending, br_err, ab_cap; cbn [br_buf br_io ab_data ab_ptr ab_end ab_rw].
  pose proof (zlen_nonneg fill). repeat split; try lia. exact Hne.
Qed.

Lemma br_run_ok ops : forall r, br_ok r -> ab_rw (br_buf r) = true ->
  Forall (fun o => 0 <= snd o <= fst o) ops ->
  exists r1, br_run r ops = (fst (spec_stream_run (ab_cap (br_buf r)) (br_err r) (br_stream r) ops), r1) /\
    br_stream r1 = snd (spec_stream_run (ab_cap (br_buf r)) (br_err r) (br_stream r) ops) /\ br_ok r1.
Proof.
  induction ops as [|[n k] ops IH]; intros r Hok Hrw Hops; cbn [br_run spec_stream_run].
  - exists r. auto.
  - inversion_clear Hops as [|? ? Ho Hops']. cbn [fst snd] in Ho.
    destruct (acquire_ok r n Hok ltac:(lia) Hrw)
      as (x & r1 & -> & Hok1 & Hst1 & Hcp1 & He1 & Hrw1 & Ha & Hb & Hc).
    destruct (ab_cap (br_buf r) <? n) eqn:E1.
    + rewrite (Hc ltac:(lia)). exists r1. cbn [fst snd]. auto.
    + destruct (zlen (br_stream r) <? n) eqn:E2.
      * rewrite (Hb ltac:(lia) ltac:(lia)). exists r1. cbn [fst snd]. auto.
      * destruct (Ha ltac:(lia) ltac:(lia)) as [-> Hsz].
        destruct (rdbytes_ok r1 k Hok1 ltac:(lia)) as (-> & Hok2 & Hst2 & Hcp2 & He2 & Hrw2 & _).
        destruct (IH (rdskip r1 k) Hok2 ltac:(congruence) Hops') as (r3 & Hrun & Hst3 & Hok3).
        rewrite Hst2, Hcp2, He2, Hst1, Hcp1, He1 in Hrun, Hst3.
        rewrite Hrun.
        destruct (spec_stream_run (ab_cap (br_buf r)) (br_err r) (drop k (br_stream r)) ops) as [o s].
        cbn [fst snd] in *. exists r3. rewrite Hst1. auto.
Qed.

Lemma buffered_reader_chunking fill t ops :
  zlen fill < 2 ^ 62 -> nonempty_chunks (t_chunks t) -> Forall (fun o => 0 <= snd o <= fst o) ops ->
  exists r1, br_run (br_new fill t) ops =
      (fst (spec_stream_run (zlen fill) (t_err t) (t_stream t) ops), r1) /\
    br_pending r1 ++ match br_io r1 with Some t1 => t_stream t1 | None => [] end =
      snd (spec_stream_run (zlen fill) (t_err t) (t_stream t) ops).
Proof.
  intros Hf Hne Hops. destruct (br_new_ok fill t Hf Hne) as (H1 & H2 & H3 & H4 & H5).
  destruct (br_run_ok ops (br_new fill t) H1 H5 Hops) as (r1 & Hr & Hs & _).
  rewrite H2, H3, H4 in Hr, Hs. exists r1. split; [exact Hr|exact Hs].
Qed.

(** Integer reads within the buffered part, as used by the parsers. *)
Lemma rd8_ok r b s : br_ok r -> br_stream r = b :: s -> 1 <= ab_end (br_buf r) - ab_ptr (br_buf r) ->
  rd8 r = Ok (b, rdskip r 1).
Proof.
  intros Hok Hs Hsz. pose proof (rdbytes_ok r 1 Hok ltac:(lia)) as (H & _).
  unfold rdbytes in H. destruct (slice (ab_data (br_buf r)) (ab_ptr (br_buf r)) 1) as [d|] eqn:E; [|discriminate].
  assert (Hd : d = [b]).
  { rewrite Hs, take_cons, take_0 in H by lia. injection H as <-. reflexivity. }
  apply slice_inv in E as (H1 & H2 & H3 & H4). unfold rd8.
  destruct (nthz_in_range (ab_data (br_buf r)) (ab_ptr (br_buf r))) as [v Hv]; [lia|].
  rewrite Hv. f_equal. f_equal.
  assert (Hn : nthz (take 1 (drop (ab_ptr (br_buf r)) (ab_data (br_buf r)))) 0 = Some v).
  { rewrite nthz_take by lia. rewrite nthz_drop by lia. rewrite Z.add_0_r. exact Hv. }
  rewrite <- H4, Hd in Hn. injection Hn as ->. reflexivity.
Qed.

(** ** Line reader *)

Lemma slice_tail {A} (p : list A) (a b : list A) : slice (p ++ a ++ b) (zlen p) (zlen a) = Some a.
Proof. apply slice_app; reflexivity. Qed.

Lemma line_scan_app l : forall s, (forall c, In c l -> c <> LF) -> line_scan (l ++ LF :: s) = zlen l + 1.
Proof.
  induction l as [|c l IH]; intros s H; cbn [app line_scan].
  - reflexivity.
  - destruct (c =? LF) eqn:E; [exfalso; apply (H c); [left; reflexivity|lia]|].
    rewrite IH by (intros; apply H; right; assumption). rewrite zlen_cons; lia.
Qed.
Lemma line_scan_all l : (forall c, In c l -> c <> LF) -> line_scan l = zlen l.
Proof.
  induction l as [|c l IH]; intros H; cbn [line_scan]; [reflexivity|].
  destruct (c =? LF) eqn:E; [exfalso; apply (H c); [left; reflexivity|lia]|].
  rewrite IH by (intros; apply H; right; assumption). rewrite zlen_cons; lia.
Qed.

(** Any text is either newline-free or splits at its first newline. *)
Lemma first_lf l : (forall c, In c l -> c <> LF) \/
  exists a s, l = a ++ LF :: s /\ (forall c, In c a -> c <> LF).
Proof.
  induction l as [|c l IH]; [left; intros c []|].
  destruct (Z.eq_dec c LF) as [->|Hc].
  - right; exists [], l. split; [reflexivity|intros c []].
  - destruct IH as [IH|(a & s & -> & IH)].
    + left. intros x [<-|Hx]; auto.
    + right; exists (c :: a), s. split; [reflexivity|]. intros x [<-|Hx]; auto.
Qed.

Lemma split_lines_app a : forall cur s, (forall c, In c a -> c <> LF) ->
  split_lines cur (a ++ LF :: s) = (rev cur ++ a) :: split_lines [] s.
Proof.
  induction a as [|c a IH]; intros cur s H; cbn [app split_lines].
  - cbn. rewrite app_nil_r. reflexivity.
  - destruct (c =? LF) eqn:E; [exfalso; apply (H c); [left; reflexivity|lia]|].
    rewrite IH by (intros; apply H; right; assumption). cbn [rev]. rewrite <- app_assoc. reflexivity.
Qed.
Lemma split_lines_none a : forall cur, (forall c, In c a -> c <> LF) ->
  split_lines cur a = match rev cur ++ a with [] => [] | l => [l] end.
Proof.
  induction a as [|c a IH]; intros cur H; cbn [split_lines].
  - rewrite app_nil_r. destruct cur as [|x cur]; [reflexivity|].
    destruct (rev (x :: cur)) eqn:E; [|reflexivity].
    apply (f_equal (@length Z)) in E. rewrite rev_length in E; discriminate.
  - destruct (c =? LF) eqn:E; [exfalso; apply (H c); [left; reflexivity|lia]|].
    rewrite IH by (intros; apply H; right; assumption). cbn [rev]. rewrite <- app_assoc. reflexivity.
Qed.

Lemma ends_with_lf_app a s : s <> [] -> ends_with_lf (a ++ s) = ends_with_lf s.
Proof.
  intros Hs. unfold ends_with_lf. rewrite rev_app_distr.
  destruct (rev s) eqn:E; [|reflexivity].
  apply (f_equal (@length Z)) in E. rewrite rev_length in E. destruct s; [congruence|discriminate].
Qed.
Lemma ends_with_lf_no l : (forall c, In c l -> c <> LF) -> ends_with_lf l = false.
Proof.
  intros H. unfold ends_with_lf. destruct (rev l) as [|c r] eqn:E; [reflexivity|].
  assert (In c l) by (apply in_rev; rewrite E; left; reflexivity).
  specialize (H c H0). lia.
Qed.
Lemma lines_of_nonempty s : s <> [] -> lines_of s <> [].
Proof.
  intros Hs. unfold lines_of. destruct (first_lf s) as [H|(a & s' & -> & H)].
  - rewrite split_lines_none by exact H. cbn [rev app]. destruct s; [congruence|discriminate].
  - rewrite split_lines_app by exact H. discriminate.
Qed.
Lemma lines_as_read_cons a s : (forall c, In c a -> c <> LF) -> s <> [] ->
  lines_as_read (a ++ LF :: s) = a :: lines_as_read s.
Proof.
  intros Ha Hs. unfold lines_as_read.
  change (a ++ LF :: s) with (a ++ [LF] ++ s). rewrite app_assoc, ends_with_lf_app by exact Hs.
  rewrite <- app_assoc. cbn [app].
  unfold lines_of at 1 2. rewrite split_lines_app by exact Ha. cbn [rev app]. fold (lines_of s).
  destruct (ends_with_lf s); [|reflexivity].
  cbn [add_lf_to_last]. pose proof (lines_of_nonempty s Hs). destruct (lines_of s); [congruence|reflexivity].
Qed.

Lemma mem_lines_ok fuel : forall p s ln, zlen s < Z.of_nat fuel ->
  mem_lines fuel (mkmem (p ++ s) (zlen p) ln) =
  (lines_as_read s, Err ERROR_IO_EOF, mkmem (p ++ s) (zlen (p ++ s)) (ln + zlen (lines_as_read s))).
Proof.
  induction fuel as [|f IH]; intros p s ln Hf; [pose proof (zlen_nonneg s); lia|].
  cbn [mem_lines]. unfold mem_read_line. cbn [mem_buf mem_pos mem_line].
  rewrite zlen_app. destruct (zlen p + zlen s <=? zlen p) eqn:E.
  - assert (zlen s = 0) by (pose proof (zlen_nonneg s); lia). apply zlen_0_nil in H. subst s.
    cbn. rewrite app_nil_r. f_equal. f_equal; lia.
  - rewrite drop_app_exact by reflexivity.
    destruct (first_lf s) as [Hno|(a & s' & -> & Ha)].
    + rewrite line_scan_all by exact Hno.
      destruct (zlen p + zlen s <? zlen p + zlen s) eqn:E2; [lia|].
      replace (zlen p + zlen s - zlen p) with (zlen s) by lia.
      assert (Hsl : slice (p ++ s) (zlen p) (zlen s) = Some s).
      { rewrite <- (app_nil_r s) at 1. apply slice_tail. }
      rewrite Hsl. cbn [of_opt].
      specialize (IH (p ++ s) [] (ln + 1)). rewrite app_nil_r in IH. rewrite <- zlen_app.
      rewrite IH by (change (zlen (@nil Z)) with 0; lia).
      unfold lines_as_read at 3 4. rewrite (ends_with_lf_no s Hno). unfold lines_of.
      rewrite split_lines_none by exact Hno. cbn [rev app].
      destruct s as [|c s]; [change (zlen (@nil Z)) with 0 in E; lia|].
      cbn [lines_as_read]. unfold lines_as_read; cbn. f_equal. f_equal. lia.
    + rewrite line_scan_app by exact Ha. rewrite zlen_app, zlen_cons.
      destruct (zlen p + (zlen a + 1) <? zlen p + (zlen a + (1 + zlen s'))) eqn:E2.
      * replace (zlen p + (zlen a + 1) - zlen p - 1) with (zlen a) by lia.
        rewrite slice_tail. cbn [of_opt].
        assert (Hs' : s' <> []) by (intros ->; change (zlen (@nil Z)) with 0 in E2; lia).
        specialize (IH (p ++ a ++ [LF]) s' (ln + 1)).
        replace ((p ++ a ++ [LF]) ++ s') with (p ++ a ++ LF :: s') in IH by (rewrite <- !app_assoc; reflexivity).
        replace (zlen (p ++ a ++ [LF])) with (zlen p + (zlen a + 1)) in IH by (rewrite !zlen_app; reflexivity).
        rewrite IH by (rewrite zlen_app, zlen_cons in Hf; pose proof (zlen_nonneg a); lia).
        rewrite lines_as_read_cons by assumption.
        f_equal. f_equal; [rewrite !zlen_app, zlen_cons; lia|]. rewrite zlen_cons; lia.
      * assert (zlen s' = 0) by (pose proof (zlen_nonneg s'); lia). apply zlen_0_nil in H. subst s'.
        replace (zlen p + (zlen a + 1) - zlen p) with (zlen (a ++ [LF])) by (rewrite zlen_app; change (zlen [LF]) with 1; lia).
        assert (Hsl : slice (p ++ a ++ [LF]) (zlen p) (zlen (a ++ [LF])) = Some (a ++ [LF])).
        { rewrite <- (app_nil_r (a ++ [LF])) at 1. apply slice_tail. }
        rewrite Hsl. cbn [of_opt].
        specialize (IH (p ++ a ++ [LF]) [] (ln + 1)). rewrite app_nil_r in IH.
        replace (zlen (p ++ a ++ [LF])) with (zlen p + (zlen a + 1)) in IH by (rewrite !zlen_app; reflexivity).
        rewrite IH.
        2:{ change (zlen (@nil Z)) with 0. rewrite zlen_app in Hf. pose proof (zlen_nonneg a). change (zlen [LF]) with 1 in Hf. lia. }
        assert (Hlr : lines_as_read (a ++ [LF]) = [a ++ [LF]]).
        { unfold lines_as_read. rewrite ends_with_lf_app by discriminate.
          change (ends_with_lf [LF]) with true. unfold lines_of.
          rewrite split_lines_app by exact Ha. reflexivity. }
        rewrite Hlr. unfold lines_as_read at 1 2; cbn. f_equal. f_equal. lia.
Qed.

Lemma memory_lines text : 
  mem_lines (S (length text)) (mem_new text) =
  (lines_as_read text, Err ERROR_IO_EOF, mkmem text (zlen text) (zlen (lines_as_read text))).
Proof.
  pose proof (mem_lines_ok (S (length text)) [] text 0) as H. cbn [app] in H.
  change (zlen (@nil Z)) with 0 in H. rewrite Z.add_0_l in H.
  apply H. unfold zlen; lia.
Qed.

(** ** Integer reads as values of the stream *)

Definition buffered (r : breader) : Z := ab_end (br_buf r) - ab_ptr (br_buf r).

Lemma rdskip_add r a b : rdskip (rdskip r a) b = rdskip r (a + b).
Proof. unfold rdskip, ab_skip; cbn. f_equal. f_equal. lia. Qed.

Lemma buffered_le_stream r : br_ok r -> buffered r <= zlen (br_stream r).
Proof.
  intros H. unfold br_stream. rewrite zlen_app, (zlen_pending r H). unfold buffered.
  pose proof (zlen_nonneg (match br_io r with Some t => t_stream t | None => [] end)). lia.
Qed.

(** One step of the reader: value, remaining stream, remaining buffered size. *)
Record rd_step (r r1 : breader) (k : Z) : Prop := mk_rd_step {
  rs_ok : br_ok r1;
  rs_stream : br_stream r1 = drop k (br_stream r);
  rs_cap : ab_cap (br_buf r1) = ab_cap (br_buf r);
  rs_err : br_err r1 = br_err r;
  rs_rw : ab_rw (br_buf r1) = ab_rw (br_buf r);
  rs_buf : buffered r1 = buffered r - k
}.

Lemma rdskip_step r k : br_ok r -> 0 <= k <= buffered r -> rd_step r (rdskip r k) k.
Proof.
  intros Hok Hk. destruct (rdbytes_ok r k Hok Hk) as (_ & H1 & H2 & H3 & H4 & H5 & H6).
  constructor; assumption.
Qed.

Lemma rd8_step r : br_ok r -> 1 <= buffered r ->
  rd8 r = Ok (bev (take 1 (br_stream r)), rdskip r 1).
Proof.
  intros Hok Hb. pose proof (buffered_le_stream r Hok).
  destruct (br_stream r) as [|b s] eqn:Es; [change (zlen (@nil Z)) with 0 in H; lia|].
  rewrite (rd8_ok r b s Hok Es Hb). rewrite take_cons, take_0 by lia.
  unfold bev; cbn [fold_left]. reflexivity.
Qed.

Lemma bytes_take n l : bytes l -> bytes (take n l).
Proof. apply Forall_take. Qed.
Lemma bytes_drop n l : bytes l -> bytes (drop n l).
Proof. apply Forall_drop. Qed.

Lemma take_split {A} a b (l : list A) : 0 <= a -> 0 <= b ->
  take (a + b) l = take a l ++ take b (drop a l).
Proof.
  intros Ha Hb. rewrite <- (take_drop a l) at 1.
  destruct (Z_le_dec a (zlen l)) as [Hle|Hgt].
  - rewrite take_app_ge by (rewrite zlen_take by lia; lia).
    rewrite zlen_take by lia. f_equal. f_equal. lia.
  - rewrite (drop_all a l) by lia. rewrite take_nil, !app_nil_r.
    rewrite take_all; [reflexivity|]. rewrite zlen_take by lia. lia.
Qed.

Lemma bev_take_split n a b (l : list Z) : n = a + b -> 0 <= a -> 0 <= b -> a + b <= zlen l ->
  bev (take n l) = bev (take a l) * 256 ^ b + bev (take b (drop a l)).
Proof.
  intros -> Ha Hb Hl. rewrite take_split by lia. rewrite bev_app.
  rewrite zlen_take by lia. rewrite zlen_drop by lia.
  replace (Z.min b (Z.max 0 (zlen l - a))) with b by lia. reflexivity.
Qed.

Lemma bev_take_range k l : 0 <= k <= zlen l -> bytes l -> 0 <= bev (take k l) < 256 ^ k.
Proof.
  intros Hk Hb. pose proof (bev_range (take k l) (bytes_take k l Hb)) as H.
  rewrite zlen_take in H by lia. replace (Z.min k (zlen l)) with k in H by lia. exact H.
Qed.

Lemma rd16_step r : br_ok r -> bytes (br_stream r) -> 2 <= buffered r ->
  rd16 r = Ok (bev (take 2 (br_stream r)), rdskip r 2).
Proof.
  intros Hok Hb Hn. pose proof (buffered_le_stream r Hok) as Hl. unfold rd16.
  rewrite rd8_step by (auto; lia). cbn [bind snd fst].
  destruct (rdskip_step r 1 Hok ltac:(lia)) as [H1 H2 H3 H4 H5 H6].
  rewrite rd8_step by (auto; lia). cbn [bind snd fst]. rewrite rdskip_add, H2.
  f_equal. f_equal. rewrite (bev_take_split 2 1 1 (br_stream r)) by lia.
  pose proof (bev_take_range 1 (br_stream r) ltac:(lia) Hb) as R1.
  pose proof (bev_take_range 1 (drop 1 (br_stream r)) ltac:(rewrite zlen_drop by lia; lia) (bytes_drop _ _ Hb)) as R2.
  rewrite shiftl_mul by lia. rewrite lor_add by lia.
  unfold u16. change (256 ^ 1) with (2 ^ 8) in *. apply Z.mod_small. lia.
Qed.

Lemma rd24_step r : br_ok r -> bytes (br_stream r) -> 3 <= buffered r ->
  rd24 r = Ok (bev (take 3 (br_stream r)), rdskip r 3).
Proof.
  intros Hok Hb Hn. pose proof (buffered_le_stream r Hok) as Hl. unfold rd24.
  rewrite rd8_step by (auto; lia). cbn [bind snd fst].
  destruct (rdskip_step r 1 Hok ltac:(lia)) as [H1 H2 H3 H4 H5 H6].
  rewrite rd16_step; [|exact H1|rewrite H2; apply bytes_drop, Hb|lia].
  cbn [bind snd fst]. rewrite rdskip_add, H2.
  f_equal. f_equal. rewrite (bev_take_split 3 1 2 (br_stream r)) by lia.
  pose proof (bev_take_range 1 (br_stream r) ltac:(lia) Hb) as R1.
  pose proof (bev_take_range 2 (drop 1 (br_stream r)) ltac:(rewrite zlen_drop by lia; lia) (bytes_drop _ _ Hb)) as R2.
  rewrite shiftl_mul by lia. rewrite lor_add by lia.
  unfold u32. change (256 ^ 2) with (2 ^ 16) in *. apply Z.mod_small. lia.
Qed.

Lemma rd32_step r : br_ok r -> bytes (br_stream r) -> 4 <= buffered r ->
  rd32 r = Ok (bev (take 4 (br_stream r)), rdskip r 4).
Proof.
  intros Hok Hb Hn. pose proof (buffered_le_stream r Hok) as Hl. unfold rd32.
  rewrite rd16_step by (auto; lia). cbn [bind snd fst].
  destruct (rdskip_step r 2 Hok ltac:(lia)) as [H1 H2 H3 H4 H5 H6].
  rewrite rd16_step; [|exact H1|rewrite H2; apply bytes_drop, Hb|lia].
  cbn [bind snd fst]. rewrite rdskip_add, H2.
  f_equal. f_equal. rewrite (bev_take_split 4 2 2 (br_stream r)) by lia.
  pose proof (bev_take_range 2 (br_stream r) ltac:(lia) Hb) as R1.
  pose proof (bev_take_range 2 (drop 2 (br_stream r)) ltac:(rewrite zlen_drop by lia; lia) (bytes_drop _ _ Hb)) as R2.
  rewrite shiftl_mul by lia. rewrite lor_add by lia.
  unfold u32. change (256 ^ 2) with (2 ^ 16) in *. apply Z.mod_small. lia.
Qed.

(** ** Integer writes *)
Lemma wr_raw_ok w d : zlen (bw_out w) + zlen d <= bw_cap w ->
  wr_raw w d = Ok (mkbw (bw_out w ++ d) (bw_cap w)).
Proof. intros H. unfold wr_raw. destruct (_ <=? _) eqn:E; [reflexivity|lia]. Qed.
Lemma wr8_ok w n : zlen (bw_out w) + 1 <= bw_cap w ->
  wr8 w n = Ok (mkbw (bw_out w ++ be 1 n) (bw_cap w)).
Proof. intros H. unfold wr8. rewrite wr_raw_ok by (change (zlen [u8 n]) with 1; lia). reflexivity. Qed.

Lemma be_1 v : be 1 v = [v mod 256].
Proof. reflexivity. Qed.
Lemma be_mod k v : be k (v mod 256 ^ Z.of_nat k) = be k v.
Proof.
  pose proof (be_bev (be k v) (be_bytes k v)) as H. rewrite be_length, bev_be in H. exact H.
Qed.
(** The low [b] bytes and the high [a] bytes. *)
Lemma be_split a b v : be (a + b) v = be a (v / 256 ^ Z.of_nat b) ++ be b v.
Proof.
  revert v; induction b as [|b IH]; intros v.
  - rewrite Nat.add_0_r. cbn [be Z.of_nat]. rewrite app_nil_r, Z.pow_0_r, Z.div_1_r. reflexivity.
  - rewrite Nat.add_succ_r. cbn [be]. rewrite IH, app_assoc.
    rewrite Nat2Z.inj_succ, Z.pow_succ_r by lia. rewrite Z.div_div by lia. reflexivity.
Qed.

Lemma wr16_ok w n : zlen (bw_out w) + 2 <= bw_cap w ->
  wr16 w n = Ok (mkbw (bw_out w ++ be 2 n) (bw_cap w)).
Proof.
  intros H. unfold wr16. rewrite wr8_ok by lia. cbn [bind].
  rewrite wr8_ok by (cbn [bw_out bw_cap]; rewrite zlen_app, zlen_be; lia).
  cbn [bw_out bw_cap]. rewrite <- app_assoc. do 3 f_equal.
  change 2%nat with (1 + 1)%nat. rewrite be_split.
  rewrite (land_ones_mod _ 8) by (reflexivity || lia). rewrite shiftr_div by lia.
  unfold u16. f_equal.
  - rewrite !be_1. f_equal. change (256 ^ Z.of_nat 1) with (2 ^ 8). zify_divmod. lia.
  - rewrite !be_1. f_equal. zify_divmod. lia.
Qed.
Lemma wr24_ok w n : zlen (bw_out w) + 3 <= bw_cap w ->
  wr24 w n = Ok (mkbw (bw_out w ++ be 3 n) (bw_cap w)).
Proof.
  intros H. unfold wr24. rewrite wr8_ok by lia. cbn [bind].
  rewrite wr16_ok by (cbn [bw_out bw_cap]; rewrite zlen_app, zlen_be; lia).
  cbn [bw_out bw_cap]. rewrite <- app_assoc. do 3 f_equal.
  change 3%nat with (1 + 2)%nat. rewrite be_split.
  rewrite (land_ones_mod _ 16) by (reflexivity || lia). rewrite shiftr_div by lia.
  unfold u32. f_equal.
  - rewrite !be_1. f_equal. change (256 ^ Z.of_nat 2) with (2 ^ 16). zify_divmod. lia.
  - rewrite <- (be_mod 2 n), <- (be_mod 2 (_ mod 2 ^ 16)). f_equal. change (256 ^ Z.of_nat 2) with (2 ^ 16). zify_divmod. lia.
Qed.
Lemma wr32_ok w n : zlen (bw_out w) + 4 <= bw_cap w ->
  wr32 w n = Ok (mkbw (bw_out w ++ be 4 n) (bw_cap w)).
Proof.
  intros H. unfold wr32. rewrite wr8_ok by lia. cbn [bind].
  rewrite wr24_ok by (cbn [bw_out bw_cap]; rewrite zlen_app, zlen_be; lia).
  cbn [bw_out bw_cap]. rewrite <- app_assoc. do 3 f_equal.
  change 4%nat with (1 + 3)%nat. rewrite be_split.
  rewrite (land_ones_mod _ 24) by (reflexivity || lia). rewrite shiftr_div by lia.
  unfold u32. f_equal.
  - rewrite !be_1. f_equal. change (256 ^ Z.of_nat 3) with (2 ^ 24). zify_divmod. lia.
  - rewrite <- (be_mod 3 n), <- (be_mod 3 (_ mod 2 ^ 24)). f_equal. change (256 ^ Z.of_nat 3) with (2 ^ 24). zify_divmod. lia.
Qed.
