(** Proofs about the write side of the bit cursor. *)
From Verif Require Import Base M_Bits S_Bits L_Bits.

Lemma zlen_nbits n v : 0 <= n -> zlen (nbits n v) = n.
Proof. intros H; unfold nbits; rewrite zlen_map; unfold zlen; rewrite seq_length; lia. Qed.

Lemma bval_nbits n v : 0 <= n -> bval (nbits n v) = v mod 2 ^ n.
Proof.
  intros Hn. unfold nbits.
  remember (Z.to_nat n) as k eqn:Ek. assert (n = Z.of_nat k) as -> by lia. clear Hn Ek.
  revert v; induction k as [|k IH]; intros v.
  - cbn. now rewrite Z.mod_1_r.
  - rewrite seq_S, map_app; cbn [map]. rewrite bval_app.
    replace (map (fun i : nat => Z.testbit v (Z.of_nat (S k) - 1 - Z.of_nat i)) (seq 0 k))
      with (map (fun i : nat => Z.testbit (v / 2) (Z.of_nat k - 1 - Z.of_nat i)) (seq 0 k)).
    + rewrite IH. change (zlen [_]) with 1. rewrite Z.pow_1_r.
      replace (Z.of_nat (S k) - 1 - Z.of_nat (0 + k)) with 0 by lia.
      unfold bval; cbn [fold_left]. rewrite Z.bit0_odd.
      rewrite Nat2Z.inj_succ, Z.pow_succ_r by lia.
      assert (0 < 2 ^ Z.of_nat k) by (apply Z.pow_pos_nonneg; lia).
      rewrite Z.rem_mul_r by lia.
      rewrite Zmod_odd. destruct (Z.odd v); cbn [Z.b2z]; lia.
    + apply map_ext_in; intros i Hi. apply in_seq in Hi.
      rewrite Z.div2_bits by lia. f_equal; lia.
Qed.

Lemma nbits_ext n v w : 0 <= n -> v mod 2 ^ n = w mod 2 ^ n -> nbits n v = nbits n w.
Proof.
  intros Hn H. apply bval_inj; [rewrite !zlen_nbits by lia; reflexivity|].
  rewrite !bval_nbits by lia. exact H.
Qed.

Lemma nbits_split n k v : 0 <= k <= n ->
  nbits n v = nbits (n - k) (Z.shiftr v k) ++ nbits k v.
Proof.
  intros Hk. apply bval_inj.
  - rewrite zlen_app, !zlen_nbits by lia; lia.
  - rewrite bval_app, !bval_nbits, zlen_nbits by lia.
    rewrite shiftr_div by lia.
    replace (2 ^ n) with (2 ^ k * 2 ^ (n - k)) by (rewrite <- Z.pow_add_r by lia; f_equal; lia).
    assert (0 < 2 ^ k) by (apply Z.pow_pos_nonneg; lia).
    assert (0 < 2 ^ (n - k)) by (apply Z.pow_pos_nonneg; lia).
    rewrite Z.rem_mul_r by lia. lia.
Qed.

Lemma bits_of_inj a b : bytes a -> bytes b -> bits_of a = bits_of b -> a = b.
Proof.
  intros Ha; revert b; induction a as [|x a IH]; intros [|y b] Hb He.
  - reflexivity.
  - discriminate.
  - discriminate.
  - apply bytes_cons in Ha as [Hx Ha]; apply bytes_cons in Hb as [Hy Hb].
    rewrite !bits_of_cons in He.
    assert (H1 : byte_bits x = byte_bits y).
    { apply (f_equal (take 8)) in He. rewrite !take_app_exact in He by reflexivity. exact He. }
    assert (H2 : bits_of a = bits_of b).
    { apply (f_equal (drop 8)) in He. rewrite !drop_app_exact in He by reflexivity. exact He. }
    f_equal.
    + rewrite <- (bval_byte_bits x Hx), <- (bval_byte_bits y Hy), H1. reflexivity.
    + auto.
Qed.

Lemma low_zero_sweep r b : 1 <= r <= 8 -> byte b ->
  drop (8 - r) (byte_bits b) = repeat false (Z.to_nat r) ->
  b = (b / 2 ^ r) * 2 ^ r /\ 0 <= b / 2 ^ r < 2 ^ (8 - r).
Proof.
  intros Hr Hb Hd.
  set (chk := fun r b => negb (list_beq (drop (8 - r) (byte_bits b)) (repeat false (Z.to_nat r)))
        || ((b =? (b / 2 ^ r) * 2 ^ r) && (0 <=? b / 2 ^ r) && (b / 2 ^ r <? 2 ^ (8 - r)))).
  assert (Hc : chk r b = true).
  { assert (Hs : forallb (fun k => forallb (fun n => chk (Z.of_nat k) (Z.of_nat n)) (seq 0 256))
                         (seq 1 8) = true) by (vm_compute; reflexivity).
    rewrite forallb_forall in Hs. specialize (Hs (Z.to_nat r)).
    rewrite Z2Nat.id in Hs by lia.
    apply (byte_sweep (chk r)); [|exact Hb]. apply Hs. apply in_seq; lia. }
  unfold chk in Hc. rewrite Hd in Hc.
  assert (Hrefl : forall l, list_beq l l = true)
    by (intros l; unfold list_beq; destruct (list_eq_dec Bool.bool_dec l l); congruence).
  rewrite Hrefl in Hc. cbn [negb orb] in Hc. lia.
Qed.

Definition chunk_chk (r nr a x : Z) : bool :=
  let b := a * 2 ^ r in
  let b' := u8 (Z.lor b (Z.shiftl x (r - nr))) in
  list_beq (byte_bits b')
           (take (8 - r) (byte_bits b) ++ nbits nr x ++ repeat false (Z.to_nat (r - nr)))
  && byteb b'.
Lemma chunk_sweep r nr a x : 1 <= nr <= r -> r <= 8 -> 0 <= a < 2 ^ (8 - r) -> 0 <= x < 2 ^ nr ->
  chunk_chk r nr a x = true.
Proof.
  intros Hn Hr Ha Hx.
  assert (Hs : forallb (fun r => forallb (fun nr => forallb (fun a => forallb (fun x =>
            chunk_chk (Z.of_nat r) (Z.of_nat nr) (Z.of_nat a) (Z.of_nat x))
            (seq 0 (Z.to_nat (2 ^ Z.of_nat nr)))) (seq 0 (Z.to_nat (2 ^ (8 - Z.of_nat r)))))
            (seq 1 r)) (seq 1 8) = true) by (vm_compute; reflexivity).
  rewrite forallb_forall in Hs. specialize (Hs (Z.to_nat r)).
  rewrite Z2Nat.id in Hs by lia. specialize (Hs ltac:(apply in_seq; lia)).
  rewrite forallb_forall in Hs. specialize (Hs (Z.to_nat nr)).
  rewrite Z2Nat.id in Hs by lia. specialize (Hs ltac:(apply in_seq; lia)).
  rewrite forallb_forall in Hs. specialize (Hs (Z.to_nat a)).
  rewrite Z2Nat.id in Hs by lia. specialize (Hs ltac:(apply in_seq; lia)).
  rewrite forallb_forall in Hs. specialize (Hs (Z.to_nat x)).
  rewrite Z2Nat.id in Hs by lia. apply Hs. apply in_seq; lia.
Qed.

Lemma chunk_ok r nr b x : 1 <= nr <= r -> r <= 8 -> byte b -> 0 <= x < 2 ^ nr ->
  drop (8 - r) (byte_bits b) = repeat false (Z.to_nat r) ->
  byte_bits (u8 (Z.lor b (Z.shiftl x (r - nr)))) =
    take (8 - r) (byte_bits b) ++ nbits nr x ++ repeat false (Z.to_nat (r - nr)) /\
  byte (u8 (Z.lor b (Z.shiftl x (r - nr)))).
Proof.
  intros Hn Hr Hb Hx Hd.
  destruct (low_zero_sweep r b) as [Hb1 Hb2]; [lia|exact Hb|exact Hd|].
  pose proof (chunk_sweep r nr (b / 2 ^ r) x Hn Hr Hb2 Hx) as Hc.
  unfold chunk_chk in Hc. cbv zeta in Hc. rewrite <- Hb1 in Hc.
  apply andb_prop in Hc as [Hc1 Hc2].
  split; [apply list_beq_true; exact Hc1|]. unfold byteb in Hc2; unfold byte; lia.
Qed.

(** Writer invariant: bits [W] written, zero padding up to the byte boundary,
    the rest of the original buffer [buf0] untouched. *)
Definition wr (c : bitctx) (W : list bool) (buf0 : list Z) : Prop :=
  bytes (bc_buf c) /\ bytes buf0 /\ zlen (bc_buf c) = zlen buf0 /\
  -1 <= bc_pos c /\ bc_pos c < zlen buf0 /\ 0 <= bc_rem c <= 8 /\ (0 < bc_rem c -> 0 <= bc_pos c) /\
  zlen W = 8 * (bc_pos c + 1) - bc_rem c /\
  bits_of (bc_buf c) = W ++ repeat false (Z.to_nat (bc_rem c)) ++ bits_of (drop (bc_pos c + 1) buf0).

Lemma wr_init buf : bytes buf -> wr (bc_init buf) [] buf.
Proof.
  intros H; unfold wr, bc_init; cbn [bc_buf bc_pos bc_rem]. pose proof (zlen_nonneg buf).
  repeat split; try assumption; try lia.
Qed.

Lemma setz_ok l i v : 0 <= i < zlen l ->
  exists l', setz l i v = Some l' /\ l' = take i l ++ [v] ++ drop (i + 1) l.
Proof.
  intros Hi; unfold setz. destruct ((0 <=? i) && (i <? zlen l)) eqn:E; [|lia].
  eexists; split; reflexivity.
Qed.
Lemma bits_setz l i v : 0 <= i < zlen l ->
  bits_of (take i l ++ [v] ++ drop (i + 1) l) =
  take (8 * i) (bits_of l) ++ byte_bits v ++ drop (8 * (i + 1)) (bits_of l).
Proof.
  intros Hi. rewrite !bits_of_app, drop_bits_of by lia.
  rewrite <- (take_drop i l) at 3. rewrite bits_of_app.
  rewrite take_app_exact by (rewrite zlen_bits_of, zlen_take by lia; lia).
  reflexivity.
Qed.
Lemma bytes_setz l i v : bytes l -> byte v -> bytes (take i l ++ [v] ++ drop (i + 1) l).
Proof.
  intros Hl Hv. apply bytes_app; split; [apply Forall_take; exact Hl|].
  apply bytes_app; split; [constructor; [exact Hv|constructor]|apply Forall_drop; exact Hl].
Qed.
Lemma zlen_setz l i (v : Z) : 0 <= i < zlen l -> zlen (take i l ++ [v] ++ drop (i + 1) l) = zlen l.
Proof. intros Hi. rewrite !zlen_app, zlen_take, zlen_drop by lia. change (zlen [v]) with 1. lia. Qed.

Lemma wr_next c W buf0 : wr c W buf0 -> bc_rem c = 0 -> bc_pos c + 1 < zlen buf0 ->
  exists c1, bc_next_write c = Ok c1 /\ wr c1 W buf0 /\ bc_rem c1 = 8.
Proof.
  intros (Hb & Hb0 & Hl & H1 & H2 & H3 & H4 & HW & Hbits) Hr Hlt.
  unfold bc_next_write. rewrite Hr; cbn [Z.eqb negb].
  destruct (setz_ok (bc_buf c) (bc_pos c + 1) 0) as (l' & -> & ->); [lia|].
  eexists; split; [reflexivity|]. cbn [bc_rem]. split; [|reflexivity].
  unfold wr; cbn [bc_buf bc_pos bc_rem].
  repeat split; try assumption; try lia.
  - apply bytes_setz; [exact Hb|unfold byte; lia].
  - rewrite zlen_setz by lia; exact Hl.
  - rewrite bits_setz by lia. rewrite Hbits, Hr in *. cbn [Z.to_nat repeat app] in *.
    rewrite Z.sub_0_r in HW.
    rewrite take_app_exact by lia. f_equal. cbn [repeat app].
    replace (byte_bits 0) with (repeat false (Pos.to_nat 8)) by reflexivity.
    f_equal.
    rewrite drop_app_ge by lia. rewrite HW.
    replace (8 * (bc_pos c + 1 + 1) - 8 * (bc_pos c + 1)) with (8 * 1) by lia.
    rewrite drop_bits_of by lia. rewrite drop_drop by lia. f_equal. f_equal; lia.
Qed.

Lemma drop_repeat {A} (x : A) n k : drop k (repeat x n) = repeat x (n - Z.to_nat k).
Proof.
  unfold drop. generalize (Z.to_nat k); clear k; intros k; revert n.
  induction k as [|k IH]; intros n; cbn; [now rewrite Nat.sub_0_r|].
  destruct n; cbn; [reflexivity|apply IH].
Qed.

Lemma wr_chunk c W buf0 nr x : wr c W buf0 -> 1 <= nr <= bc_rem c -> 0 <= x < 2 ^ nr ->
  exists old b, nthz (bc_buf c) (bc_pos c) = Some old /\
    setz (bc_buf c) (bc_pos c) (u8 (Z.lor old (Z.shiftl x (bc_rem c - nr)))) = Some b /\
    wr (mkbc b (bc_pos c) (bc_rem c - nr) (bc_val c)) (W ++ nbits nr x) buf0.
Proof.
  intros (Hb & Hb0 & Hl & H1 & H2 & H3 & H4 & HW & Hbits) Hnr Hx.
  specialize (H4 ltac:(lia)).
  destruct (nthz_in_range (bc_buf c) (bc_pos c)) as [old Hold]; [lia|].
  exists old.
  destruct (setz_ok (bc_buf c) (bc_pos c) (u8 (Z.lor old (Z.shiftl x (bc_rem c - nr)))))
    as (b & -> & ->); [lia|].
  eexists; split; [exact Hold|]; split; [reflexivity|].
  pose proof (nthz_byte _ _ _ Hb Hold) as Hob.
  assert (Hbyte : byte_bits old = drop (8 * bc_pos c) W ++ repeat false (Z.to_nat (bc_rem c))).
  { assert (He : take 8 (drop (8 * bc_pos c) (bits_of (bc_buf c))) = byte_bits old).
    { rewrite drop_bits_of by lia. rewrite (drop_nth _ _ _ Hold), bits_of_cons.
      apply take_app_exact; reflexivity. }
    rewrite <- He, Hbits. rewrite drop_app_le by lia. rewrite app_assoc.
    apply take_app_exact. rewrite zlen_app, zlen_drop, zlen_repeat by lia. lia. }
  assert (HlW : zlen (drop (8 * bc_pos c) W) = 8 - bc_rem c) by (rewrite zlen_drop by lia; lia).
  destruct (chunk_ok (bc_rem c) nr old x) as [Hc1 Hc2]; try assumption; try lia.
  { rewrite Hbyte. apply drop_app_exact. lia. }
  unfold wr; cbn [bc_buf bc_pos bc_rem].
  repeat split; try assumption; try lia.
  - apply bytes_setz; assumption.
  - rewrite zlen_setz by lia; exact Hl.
  - rewrite zlen_app, zlen_nbits by lia. lia.
  - rewrite bits_setz by lia. rewrite Hc1, Hbyte, Hbits.
    rewrite (take_app_exact (8 - bc_rem c)) by lia.
    rewrite take_app_le by lia.
    rewrite (drop_app_ge (8 * (bc_pos c + 1))) by lia.
    rewrite drop_app_exact by (rewrite zlen_repeat; lia).
    rewrite <- (take_drop (8 * bc_pos c) W) at 3.
    rewrite <- !app_assoc. reflexivity.
Qed.

(** What the writer stores for one field: the pieces as masked. *)
Definition mask_of (w : Z) : Z := nth (Z.to_nat (w - 1)) write_masks 0.
Definition piece_bits (v : Z) (p : Z * Z) : list bool :=
  nbits (fst p) (Z.land (mask_of (fst p)) (Z.shiftr v (snd p))).
Definition stored (o n v : Z) : list bool :=
  flat_map (piece_bits v) (pieces (Z.to_nat n) o n).

Lemma mask_nth w : 1 <= w <= 8 -> nthz write_masks (w - 1) = Some (mask_of w) /\
  0 <= mask_of w < 2 ^ w.
Proof.
  intros Hw. assert (Hc : w = 1 \/ w = 2 \/ w = 3 \/ w = 4 \/ w = 5 \/ w = 6 \/ w = 7 \/ w = 8) by lia.
  destruct Hc as [->|[->|[->|[->|[->|[->|[->| ->]]]]]]]; split; vm_compute; auto; split; congruence.
Qed.

Lemma land_bound m y w : 0 <= w -> 0 <= m < 2 ^ w -> 0 <= Z.land m y < 2 ^ w.
Proof.
  intros Hw Hm. split; [apply Z.land_nonneg; lia|].
  replace m with (m mod 2 ^ w) by (apply Z.mod_small; lia).
  rewrite <- Z.land_ones by lia. rewrite <- Z.land_assoc, (Z.land_comm (Z.ones w)), Z.land_assoc.
  rewrite Z.land_ones by lia. apply Z.mod_pos_bound. apply Z.pow_pos_nonneg; lia.
Qed.

Lemma pieces_fuel f o n : n <= Z.of_nat f -> pieces f o n = pieces (Z.to_nat n) o n.
Proof.
  revert o n. induction f as [|f IH]; intros o n Hf.
  - replace (Z.to_nat n) with O by lia. reflexivity.
  - cbn [pieces]. destruct (n <=? 0) eqn:E.
    + replace (Z.to_nat n) with O by lia. reflexivity.
    + replace (Z.to_nat n) with (S (Z.to_nat (n - 1))) by lia. cbn [pieces]. rewrite E.
      pose proof (Z.mod_pos_bound o 8 ltac:(lia)) as Hm.
      f_equal. rewrite IH by lia.
      destruct (Z_le_dec (n - Z.min n (8 - o mod 8)) (n - 1)) as [Hle|]; [|lia].
      symmetry.
      assert (G : forall f' o' n', (n' <= Z.of_nat f') -> (Z.of_nat f' <= Z.of_nat f) -> pieces f' o' n' = pieces (Z.to_nat n') o' n').
      { clear - IH. intros f' o' n' H1 H2.
        rewrite <- (IH o' n') by lia.
        revert o' n' H1. assert (Hff : (f' <= f)%nat) by lia. clear H2 IH. revert f Hff.
        induction f' as [|f' IH']; intros f Hff o' n' H1.
        - destruct f; cbn [pieces]; [reflexivity|]. destruct (n' <=? 0) eqn:E'; [reflexivity|lia].
        - destruct f; [lia|]. cbn [pieces]. destruct (n' <=? 0) eqn:E'; [reflexivity|].
          f_equal. apply IH'; [lia|]. pose proof (Z.mod_pos_bound o' 8 ltac:(lia)). lia. }
      apply G; lia.
Qed.

Lemma stored_unfold o n v : 0 < n ->
  stored o n v = let w := Z.min n (8 - o mod 8) in
    nbits w (Z.land (mask_of w) (Z.shiftr v (n - w))) ++ stored (o + w) (n - w) v.
Proof.
  intros Hn. cbv zeta. unfold stored.
  replace (Z.to_nat n) with (S (Z.to_nat (n - 1))) at 1 by lia. cbn [pieces].
  destruct (n <=? 0) eqn:E; [lia|]. cbn [flat_map].
  pose proof (Z.mod_pos_bound o 8 ltac:(lia)) as Hm.
  rewrite (pieces_fuel (Z.to_nat (n - 1))) by lia. reflexivity.
Qed.
Lemma stored_0 o n v : n <= 0 -> stored o n v = [].
Proof. intros Hn; unfold stored. replace (Z.to_nat n) with O by lia. reflexivity. Qed.

Lemma wr_rem_mod c W buf0 : wr c W buf0 -> 1 <= bc_rem c -> bc_rem c = 8 - zlen W mod 8.
Proof.
  intros (_ & _ & _ & _ & _ & H3 & _ & HW & _) Hr. rewrite HW.
  replace (8 * (bc_pos c + 1) - bc_rem c) with ((8 - bc_rem c) + bc_pos c * 8) by lia.
  rewrite Z.mod_add by lia. rewrite Z.mod_small by lia. lia.
Qed.

Lemma write_bits_loop_ok fuel : forall c W buf0 v n,
  wr c W buf0 -> bc_rem c <= 7 -> 0 <= n <= 64 -> n <= Z.of_nat fuel ->
  zlen W + n <= 8 * zlen buf0 ->
  exists c', write_bits_loop fuel c v n = Ok c' /\ wr c' (W ++ stored (zlen W) n v) buf0 /\ bc_rem c' <= 7.
Proof.
  induction fuel as [|f IH]; intros c W buf0 v n Hw Hr7 Hn Hf Hsp.
  - cbn [write_bits_loop]. destruct (n <=? 0) eqn:E; [|lia].
    exists c. rewrite stored_0, app_nil_r by lia. auto.
  - cbn [write_bits_loop]. destruct (n <=? 0) eqn:E.
    + exists c. rewrite stored_0, app_nil_r by lia. auto.
    + assert (Hex : exists c1, (if bc_rem c =? 0 then bc_next_write c else Ok c) = Ok c1 /\
                wr c1 W buf0 /\ 1 <= bc_rem c1).
      { destruct (bc_rem c =? 0) eqn:Er.
        - destruct (wr_next c W buf0 Hw) as (c1 & H1 & H2 & H3); [lia| |].
          + destruct Hw as (_ & _ & _ & _ & _ & _ & _ & HW & _). lia.
          + exists c1. split; [exact H1|]. split; [exact H2|]. lia.
        - exists c. split; [reflexivity|]. split; [exact Hw|].
          destruct Hw as (_ & _ & _ & _ & _ & H3 & _). lia. }
      destruct Hex as (c1 & -> & Hw1 & Hr1). cbn [bind].
      assert (Hr8 : bc_rem c1 <= 8) by (destruct Hw1 as (_ & _ & _ & _ & _ & H3 & _); lia).
      pose proof (wr_rem_mod c1 W buf0 Hw1 Hr1) as Hrm.
      rewrite stored_unfold by lia. cbv zeta. rewrite <- Hrm.
      rewrite (Z.min_comm (bc_rem c1) n).
      set (nr := Z.min n (bc_rem c1)).
      assert (Hnr : 1 <= nr <= bc_rem c1) by (unfold nr; lia).
      destruct (64 <=? n - nr) eqn:E64; [lia|].
      destruct (mask_nth nr) as [Hm1 Hm2]; [lia|].
      rewrite Hm1. cbn [of_opt bind].
      destruct (wr_chunk c1 W buf0 nr (Z.land (mask_of nr) (Z.shiftr v (n - nr))) Hw1 Hnr)
        as (old & b & Hold & Hset & Hw2).
      { apply land_bound; lia. }
      rewrite Hold. cbn [of_opt bind]. rewrite Hset. cbn [of_opt bind].
      destruct (IH (mkbc b (bc_pos c1) (bc_rem c1 - nr) (bc_val c1))
                   (W ++ nbits nr (Z.land (mask_of nr) (Z.shiftr v (n - nr)))) buf0 v (n - nr))
        as (c' & He & Hw' & Hr').
      * exact Hw2.
      * cbn [bc_rem]; lia.
      * lia.
      * lia.
      * rewrite zlen_app, zlen_nbits by lia. lia.
      * exists c'. split; [exact He|]. split; [|exact Hr'].
        rewrite zlen_app, zlen_nbits in Hw' by lia.
        rewrite <- app_assoc in Hw'. exact Hw'.
Qed.

Fixpoint stored_fields (o : Z) (fs : list (Z * Z)) : list bool :=
  match fs with
  | [] => []
  | (v, n) :: fs' => stored o n v ++ stored_fields (o + n) fs'
  end.

Lemma zlen_stored_aux k : forall o n v, n <= Z.of_nat k -> 0 <= n -> zlen (stored o n v) = n.
Proof.
  induction k as [|k IH]; intros o n v Hk Hn.
  - rewrite stored_0 by lia. cbn; lia.
  - destruct (Z.eq_dec n 0) as [->|Hn0]; [rewrite stored_0 by lia; reflexivity|].
    rewrite stored_unfold by lia. cbv zeta.
    pose proof (Z.mod_pos_bound o 8 ltac:(lia)).
    rewrite zlen_app, zlen_nbits by lia. rewrite IH by lia. lia.
Qed.
Lemma zlen_stored o n v : 0 <= n -> zlen (stored o n v) = n.
Proof. intros; apply (zlen_stored_aux (Z.to_nat n)); lia. Qed.

Lemma widths_nonneg fs : Forall (fun f => 0 <= snd f) fs -> 0 <= widths fs.
Proof. induction 1 as [|[v n] fs H _ IH]; cbn [widths snd] in *; lia. Qed.

Lemma write_fields_ok fs : forall c W buf0,
  wr c W buf0 -> bc_rem c <= 7 -> Forall (fun f => 0 <= snd f <= 64) fs ->
  zlen W + widths fs <= 8 * zlen buf0 ->
  exists c', write_fields c fs = Ok c' /\ wr c' (W ++ stored_fields (zlen W) fs) buf0 /\ bc_rem c' <= 7.
Proof.
  induction fs as [|[v n] fs IH]; intros c W buf0 Hw Hr Hfs Hsp; cbn [write_fields stored_fields widths] in *.
  - exists c. rewrite app_nil_r. auto.
  - inversion_clear Hfs as [|? ? Hf Hfs']. cbn [snd] in Hf.
    assert (0 <= widths fs) by (apply widths_nonneg; eapply Forall_impl; [|exact Hfs']; cbn; lia).
    unfold write_bits.
    destruct (write_bits_loop_ok (Z.to_nat n) c W buf0 v n) as (c1 & -> & Hw1 & Hr1);
      try assumption; try lia.
    cbn [bind].
    destruct (IH c1 (W ++ stored (zlen W) n v) buf0) as (c2 & He & Hw2 & Hr2); try assumption.
    + rewrite zlen_app, zlen_stored by lia. lia.
    + exists c2. split; [exact He|]. split; [|exact Hr2].
      rewrite zlen_app, zlen_stored in Hw2 by lia. rewrite <- app_assoc in Hw2. exact Hw2.
Qed.

(** A piece is stored faithfully exactly when [piece_ok]. *)
Lemma piece_iff v w lo : 1 <= w <= 8 -> 0 <= lo ->
  nbits w (Z.land (mask_of w) (Z.shiftr v lo)) = nbits w (Z.shiftr v lo) <-> piece_ok v (w, lo) = true.
Proof.
  intros Hw Hlo. unfold piece_ok; cbn [fst snd].
  destruct (w =? 6) eqn:E6.
  - assert (w = 6) as -> by lia. cbn [andb].
    unfold nbits. change (Z.to_nat 6) with 6%nat. cbn [seq map Z.of_nat].
    rewrite !Z.land_spec, !Z.shiftr_spec by lia.
    change (mask_of 6) with 47.
    replace (Z.testbit 47 (6 - 1 - 0)) with true by reflexivity.
    replace (Z.testbit 47 (6 - 1 - Z.pos (Pos.of_succ_nat 0))) with false by reflexivity.
    replace (Z.testbit 47 (6 - 1 - Z.pos (Pos.of_succ_nat 1))) with true by reflexivity.
    replace (Z.testbit 47 (6 - 1 - Z.pos (Pos.of_succ_nat 2))) with true by reflexivity.
    replace (Z.testbit 47 (6 - 1 - Z.pos (Pos.of_succ_nat 3))) with true by reflexivity.
    replace (Z.testbit 47 (6 - 1 - Z.pos (Pos.of_succ_nat 4))) with true by reflexivity.
    cbn [andb].
    replace (6 - 1 - Z.pos (Pos.of_succ_nat 0) + lo) with (lo + 4) by lia.
    destruct (Z.testbit v (lo + 4)); cbn [negb]; split; intros H; try reflexivity; try discriminate.
  - cbn [andb negb]. split; [reflexivity|intros _].
    apply nbits_ext; [lia|].
    assert (Hm : mask_of w = 2 ^ w - 1).
    { assert (Hc : w = 1 \/ w = 2 \/ w = 3 \/ w = 4 \/ w = 5 \/ w = 7 \/ w = 8) by lia.
      destruct Hc as [->|[->|[->|[->|[->|[->| ->]]]]]]; reflexivity. }
    rewrite Z.land_comm, (land_ones_mod _ w) by (lia || exact Hm).
    apply Z.mod_mod. apply Z.pow_nonzero; lia.
Qed.

Lemma app_eq_len {A} (a b c d : list A) : zlen a = zlen c -> a ++ b = c ++ d <-> a = c /\ b = d.
Proof.
  intros Hl. split; [|intros []; congruence]. intros He. split.
  - apply (f_equal (take (zlen a))) in He. rewrite take_app_exact in He by reflexivity.
    rewrite take_app_exact in He by assumption. exact He.
  - apply (f_equal (drop (zlen a))) in He. rewrite drop_app_exact in He by reflexivity.
    rewrite drop_app_exact in He by assumption. exact He.
Qed.

Lemma field_ok_unfold o v n : 0 < n -> field_ok o (v, n) =
  let w := Z.min n (8 - o mod 8) in piece_ok v (w, n - w) && field_ok (o + w) (v, n - w).
Proof.
  intros Hn. cbv zeta. unfold field_ok; cbn [fst snd].
  replace (Z.to_nat n) with (S (Z.to_nat (n - 1))) at 1 by lia. cbn [pieces].
  destruct (n <=? 0) eqn:E; [lia|]. cbn [forallb].
  pose proof (Z.mod_pos_bound o 8 ltac:(lia)) as Hm.
  rewrite (pieces_fuel (Z.to_nat (n - 1))) by lia. reflexivity.
Qed.

Lemma stored_iff_aux k : forall o n v, n <= Z.of_nat k -> 0 <= n ->
  stored o n v = nbits n v <-> field_ok o (v, n) = true.
Proof.
  induction k as [|k IH]; intros o n v Hk Hn.
  - assert (n = 0) as -> by lia. split; reflexivity.
  - destruct (Z.eq_dec n 0) as [->|Hn0]; [split; reflexivity|].
    rewrite stored_unfold, field_ok_unfold by lia. cbv zeta.
    pose proof (Z.mod_pos_bound o 8 ltac:(lia)) as Hm.
    set (w := Z.min n (8 - o mod 8)). assert (1 <= w <= 8 /\ w <= n) by (unfold w; lia).
    rewrite (nbits_split n (n - w) v) by lia. replace (n - (n - w)) with w by lia.
    rewrite app_eq_len by (rewrite !zlen_nbits; lia).
    rewrite piece_iff by lia. rewrite IH by lia. rewrite andb_true_iff. reflexivity.
Qed.
Lemma stored_iff o n v : 0 <= n -> stored o n v = nbits n v <-> field_ok o (v, n) = true.
Proof. intros; apply (stored_iff_aux (Z.to_nat n)); lia. Qed.

(** Reading back the same widths. *)
Lemma spec_readback fs : forall o rest, Forall (fun f => 0 <= snd f <= 32) fs ->
  spec_bit_run (stored_fields o fs ++ rest) (map (fun f => RBits (snd f)) fs) =
  Some (map (fun '(of, f) => OVal (bval (stored of (snd f) (fst f))))
            ((fix go o fs := match fs with [] => [] | f :: fs' => (o, f) :: go (o + snd f) fs' end) o fs),
        rest).
Proof.
  induction fs as [|[v n] fs IH]; intros o rest Hfs; [reflexivity|].
  inversion_clear Hfs as [|? ? Hf Hfs']. cbn [snd] in Hf.
  cbn [stored_fields map spec_bit_run spec_bit_step fst snd].
  rewrite <- app_assoc.
  destruct ((0 <=? n) && (n <=? zlen (stored o n v ++ stored_fields (o + n) fs ++ rest))) eqn:E.
  2:{ rewrite zlen_app, zlen_stored in E by lia.
      pose proof (zlen_nonneg (stored_fields (o + n) fs ++ rest)). lia. }
  rewrite take_app_exact, drop_app_exact by (rewrite zlen_stored; lia).
  rewrite IH by assumption.
  pose proof (bval_range (stored o n v)) as Hr. rewrite zlen_stored in Hr by lia.
  rewrite Z.mod_small.
  2:{ split; [lia|]. apply Z.lt_le_trans with (2 ^ n); [lia|]. apply Z.pow_le_mono_r; lia. }
  reflexivity.
Qed.

Lemma readback_iff fs : forall o, Forall (fun f => 0 <= snd f <= 32) fs ->
  map (fun '(of, f) => OVal (bval (stored of (snd f) (fst f))))
      ((fix go o fs := match fs with [] => [] | f :: fs' => (o, f) :: go (o + snd f) fs' end) o fs)
  = map (fun f => OVal (fst f mod 2 ^ snd f)) fs <-> fields_ok o fs = true.
Proof.
  induction fs as [|[v n] fs IH]; intros o Hfs; [cbn; tauto|].
  inversion_clear Hfs as [|? ? Hf Hfs']. cbn [snd] in Hf.
  cbn [map fields_ok fst snd]. rewrite andb_true_iff, <- stored_iff by lia.
  rewrite <- (IH (o + n)) by assumption. split.
  - intros [= H1 H2]. split; [|exact H2].
    apply bval_inj; [rewrite zlen_stored, zlen_nbits; lia|]. rewrite bval_nbits by lia. exact H1.
  - intros [H1 H2]. f_equal; [|exact H2]. f_equal. rewrite H1. apply bval_nbits; lia.
Qed.

Lemma readback_exact_ok fs : forall o, Forall (fun f => 0 <= snd f <= 32) fs ->
  readback_exact o fs (map (fun '(of, f) => OVal (bval (stored of (snd f) (fst f))))
      ((fix go o fs := match fs with [] => [] | f :: fs' => (o, f) :: go (o + snd f) fs' end) o fs)).
Proof.
  induction fs as [|[v n] fs IH]; intros o Hfs; [exact I|].
  inversion_clear Hfs as [|? ? Hf Hfs']. cbn [snd] in Hf.
  cbn [map readback_exact fst snd]. split; [|apply IH; exact Hfs'].
  rewrite <- stored_iff by lia. split.
  - intros H. apply bval_inj; [rewrite zlen_stored, zlen_nbits; lia|]. rewrite bval_nbits by lia. exact H.
  - intros ->. apply bval_nbits; lia.
Qed.

Lemma bit_writer_roundtrip buf fs : bytes buf -> zlen buf < 2 ^ 60 ->
  Forall (fun f => 0 <= snd f <= 32) fs -> widths fs <= 8 * zlen buf ->
  exists c outs c', write_fields (bc_init buf) fs = Ok c /\
    bc_run (bc_init (bc_buf c)) (map (fun f => RBits (snd f)) fs) = Ok (outs, c') /\
    zlen (bc_buf c) = zlen buf /\
    drop ((widths fs + 7) / 8) (bc_buf c) = drop ((widths fs + 7) / 8) buf /\
    readback_exact 0 fs outs /\
    (outs = map (fun f => OVal (fst f mod 2 ^ snd f)) fs <-> fields_ok 0 fs = true).
Proof.
  intros Hb Hlt Hfs Hsp.
  destruct (write_fields_ok fs (bc_init buf) [] buf) as (c & Hw & Hinv & Hr).
  - apply wr_init; exact Hb.
  - cbn; lia.
  - eapply Forall_impl; [|exact Hfs]; cbn; lia.
  - rewrite zlen_nil; lia.
  - cbn [app] in Hinv. rewrite zlen_nil in Hinv.
    assert (Hws : zlen (stored_fields 0 fs) = widths fs).
    { clear - Hfs. generalize 0 at 1. induction fs as [|[v n] fs IH]; intros o; [reflexivity|].
      inversion_clear Hfs as [|? ? Hf Hfs']. cbn [snd] in Hf. cbn [stored_fields widths].
      rewrite zlen_app, zlen_stored, IH by (assumption || lia). reflexivity. }
    destruct Hinv as (Hbc & _ & Hlen & H1 & H2 & H3 & H4 & HW & Hbits).
    pose proof (spec_readback fs 0 (repeat false (Z.to_nat (bc_rem c)) ++ bits_of (drop (bc_pos c + 1) buf)) Hfs) as Hspec.
    rewrite <- Hbits in Hspec.
    destruct (bit_reader_spec (bc_buf c) _ _ _ Hbc ltac:(lia) Hspec) as (c' & Hrun & _ & _).
    exists c. eexists. exists c'. split; [exact Hw|]. split; [exact Hrun|]. split; [exact Hlen|].
    split; [|split; [apply readback_exact_ok; exact Hfs|apply readback_iff; exact Hfs]].
    assert (Hk : (widths fs + 7) / 8 = bc_pos c + 1).
    { symmetry; apply Z.div_unique with (7 - bc_rem c); lia. }
    rewrite Hk. apply bits_of_inj; [apply Forall_drop; exact Hbc|apply Forall_drop; exact Hb|].
    rewrite <- !drop_bits_of by lia. rewrite Hbits, app_assoc.
    rewrite drop_app_exact; [symmetry; apply drop_bits_of; lia|].
    rewrite zlen_app, zlen_repeat. lia.
Qed.
