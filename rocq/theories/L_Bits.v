(** Proofs about the bit cursor. *)
From Verif Require Import Base M_Bits S_Bits.

Lemma drop_nth {A} (l : list A) k v : nthz l k = Some v -> drop k l = v :: drop (k + 1) l.
Proof.
  intros H. pose proof (nthz_some_range _ _ _ H) as Hr.
  unfold nthz in H; destruct (k <? 0) eqn:E; [lia|].
  unfold drop. replace (Z.to_nat (k + 1)) with (S (Z.to_nat k)) by lia.
  revert H; generalize (Z.to_nat k); clear; intros k; revert l.
  induction k as [|k IH]; intros [|x l] H; cbn in *; try discriminate.
  - congruence.
  - apply IH; exact H.
Qed.

Lemma zlen_byte_bits b : zlen (byte_bits b) = 8.
Proof. reflexivity. Qed.
Lemma bits_of_cons x l : bits_of (x :: l) = byte_bits x ++ bits_of l.
Proof. reflexivity. Qed.
Lemma bits_of_app a b : bits_of (a ++ b) = bits_of a ++ bits_of b.
Proof. apply flat_map_app. Qed.
Lemma zlen_bits_of l : zlen (bits_of l) = 8 * zlen l.
Proof.
  induction l as [|x l IH]; [reflexivity|].
  rewrite bits_of_cons, zlen_app, IH, zlen_byte_bits, zlen_cons; lia.
Qed.
Lemma drop_bits_of k l : 0 <= k -> drop (8 * k) (bits_of l) = bits_of (drop k l).
Proof.
  intros Hk; destruct (Z_le_dec k (zlen l)).
  - rewrite <- (take_drop k l) at 1. rewrite bits_of_app.
    apply drop_app_exact. rewrite zlen_bits_of, zlen_take by lia; lia.
  - rewrite !drop_all; [reflexivity|lia|rewrite zlen_bits_of; lia].
Qed.

Lemma bval_acc bs a : fold_left (fun a b => 2 * a + Z.b2z b) bs a = a * 2 ^ zlen bs + bval bs.
Proof.
  unfold bval; revert a; induction bs as [|x bs IH]; intros a; cbn [fold_left].
  - rewrite zlen_nil; lia.
  - rewrite IH, (IH (2 * 0 + Z.b2z x)), zlen_cons, Z.pow_add_r by (pose proof (zlen_nonneg bs); lia).
    lia.
Qed.
Lemma bval_app a b : bval (a ++ b) = bval a * 2 ^ zlen b + bval b.
Proof. unfold bval at 1; rewrite fold_left_app; apply bval_acc. Qed.
Lemma bval_cons x l : bval (x :: l) = Z.b2z x * 2 ^ zlen l + bval l.
Proof. change (x :: l) with ([x] ++ l); rewrite bval_app; unfold bval at 1; cbn [fold_left]; lia. Qed.
Lemma bval_range bs : 0 <= bval bs < 2 ^ zlen bs.
Proof.
  induction bs as [|x l IH]; [cbn; lia|].
  rewrite bval_cons, zlen_cons, Z.pow_add_r by (pose proof (zlen_nonneg l); lia).
  destruct x; cbn [Z.b2z]; lia.
Qed.
Lemma bval_inj a b : zlen a = zlen b -> bval a = bval b -> a = b.
Proof.
  revert b; induction a as [|x a IH]; intros [|y b] Hl Hv.
  - reflexivity.
  - rewrite zlen_cons, zlen_nil in Hl; pose proof (zlen_nonneg b); lia.
  - rewrite zlen_cons, zlen_nil in Hl; pose proof (zlen_nonneg a); lia.
  - rewrite !zlen_cons in Hl. assert (Hl' : zlen a = zlen b) by lia.
    rewrite !bval_cons, Hl' in Hv.
    pose proof (bval_range a) as Ha; pose proof (bval_range b) as Hb; rewrite Hl' in Ha.
    destruct x, y; cbn [Z.b2z] in Hv; try lia; f_equal; apply IH; lia.
Qed.
Lemma bval_byte_bits b : byte b -> bval (byte_bits b) = b.
Proof.
  intros Hb. apply Z.eqb_eq. revert b Hb. apply byte_sweep. vm_compute; reflexivity.
Qed.

(** ** Reading *)

Definition list_beq (a b : list bool) : bool := if list_eq_dec Bool.bool_dec a b then true else false.
Lemma list_beq_true a b : list_beq a b = true -> a = b.
Proof. unfold list_beq; destruct (list_eq_dec Bool.bool_dec a b); [auto|discriminate]. Qed.

Definition reg_check (nr v : Z) : bool :=
  match top_bits nr v with
  | Ok t => (t =? bval (take nr (byte_bits v)))
            && list_beq (byte_bits (u8 (Z.shiftl v nr)))
                        (drop nr (byte_bits v) ++ repeat false (Z.to_nat nr))
            && (0 <=? t) && (t <? 2 ^ nr) && byteb (u8 (Z.shiftl v nr))
  | _ => false
  end.
Lemma reg_step nr v : 1 <= nr <= 8 -> byte v ->
  exists t, top_bits nr v = Ok t /\ t = bval (take nr (byte_bits v)) /\
    byte_bits (u8 (Z.shiftl v nr)) = drop nr (byte_bits v) ++ repeat false (Z.to_nat nr) /\
    0 <= t < 2 ^ nr /\ byte (u8 (Z.shiftl v nr)).
Proof.
  intros Hn Hv.
  assert (Hc : reg_check nr v = true).
  { assert (Hs : forallb (fun k => forallb (fun n => reg_check (Z.of_nat k) (Z.of_nat n)) (seq 0 256))
                         (seq 1 8) = true) by (vm_compute; reflexivity).
    rewrite forallb_forall in Hs. specialize (Hs (Z.to_nat nr)).
    rewrite Z2Nat.id in Hs by lia.
    apply (byte_sweep (reg_check nr)); [|exact Hv]. apply Hs. apply in_seq; lia. }
  unfold reg_check in Hc. destruct (top_bits nr v) as [t| | |] eqn:Et; try discriminate.
  exists t. repeat (apply andb_prop in Hc as [Hc ?]).
  split; [reflexivity|]. split; [lia|]. split; [apply list_beq_true; assumption|].
  unfold byte; unfold byteb in *. lia.
Qed.

(** The cursor [c] has exactly the bits [bs] left to read. *)
Definition cur (c : bitctx) (bs : list bool) : Prop :=
  bytes (bc_buf c) /\ -1 <= bc_pos c /\ bc_pos c < zlen (bc_buf c) /\
  0 <= bc_rem c <= 8 /\ (0 < bc_rem c -> 0 <= bc_pos c) /\ byte (bc_val c) /\
  bs = drop (8 * (bc_pos c + 1) - bc_rem c) (bits_of (bc_buf c)) /\
  take (bc_rem c) (byte_bits (bc_val c)) = take (bc_rem c) bs.

Lemma cur_len c bs : cur c bs -> zlen bs = 8 * (zlen (bc_buf c) - bc_pos c - 1) + bc_rem c.
Proof.
  intros (Hb & H1 & H2 & H3 & H4 & H5 & -> & _).
  rewrite zlen_drop, zlen_bits_of by lia; lia.
Qed.

Lemma cur_init l : bytes l -> cur (bc_init l) (bits_of l).
Proof.
  intros H; unfold cur, bc_init; cbn [bc_buf bc_pos bc_rem bc_val].
  pose proof (zlen_nonneg l).
  repeat split; try lia; try assumption.
Qed.

(** Loading the next byte keeps the unread bits. *)
Lemma cur_next c bs : cur c bs -> bc_rem c = 0 -> 0 < zlen bs ->
  exists c1, bc_next c = Ok c1 /\ cur c1 bs /\ bc_rem c1 = 8 /\ bc_buf c1 = bc_buf c.
Proof.
  intros Hc Hr Hlen. pose proof (cur_len _ _ Hc) as Hl.
  destruct Hc as (Hb & H1 & H2 & H3 & H4 & H5 & Hbs & Ht).
  unfold bc_next. rewrite Hr; cbn [Z.eqb negb].
  destruct (nthz_in_range (bc_buf c) (bc_pos c + 1)) as [v Hv]; [lia|].
  rewrite Hv. eexists; split; [reflexivity|]. cbn [bc_rem bc_buf].
  split; [|auto].
  unfold cur; cbn [bc_buf bc_pos bc_rem bc_val].
  pose proof (nthz_byte _ _ _ Hb Hv) as Hvb.
  assert (Hbs' : bs = byte_bits v ++ bits_of (drop (bc_pos c + 1 + 1) (bc_buf c))).
  { rewrite Hbs, Hr, Z.sub_0_r, drop_bits_of by lia.
    rewrite (drop_nth _ _ _ Hv). reflexivity. }
  repeat split; try assumption; try lia; try apply Hvb.
  - rewrite Hbs, Hr. f_equal; lia.
  - rewrite Hbs'. rewrite take_app_exact by reflexivity. apply take_all; cbv; discriminate.
Qed.

(** One iteration's effect on the cursor. *)
Lemma cur_consume c bs nr : cur c bs -> 1 <= nr <= bc_rem c ->
  exists t, top_bits nr (bc_val c) = Ok t /\ t = bval (take nr bs) /\ 0 <= t < 2 ^ nr /\
    cur (mkbc (bc_buf c) (bc_pos c) (bc_rem c - nr) (u8 (Z.shiftl (bc_val c) nr))) (drop nr bs).
Proof.
  intros Hc Hnr. pose proof (cur_len _ _ Hc) as Hl.
  destruct Hc as (Hb & H1 & H2 & H3 & H4 & H5 & Hbs & Ht).
  destruct (reg_step nr (bc_val c)) as (t & Et & Hval & Hreg & Htr & Hby); [lia|assumption|].
  assert (Htk : take nr (byte_bits (bc_val c)) = take nr bs).
  { assert (Hm := f_equal (take nr) Ht). rewrite !take_take in Hm.
    rewrite !Z.min_l in Hm by lia. exact Hm. }
  exists t. rewrite Htk in Hval.
  split; [exact Et|]. split; [exact Hval|]. split; [exact Htr|].
  unfold cur; cbn [bc_buf bc_pos bc_rem bc_val].
  repeat split; try assumption; try lia; try apply Hby.
  - rewrite Hbs, drop_drop by lia. f_equal; lia.
  - rewrite Hreg, take_app_le.
    2:{ rewrite zlen_drop, zlen_byte_bits by lia. lia. }
    assert (Hm := f_equal (drop nr) Ht).
    assert (Hd : forall l : list bool, 8 <= zlen l \/ bc_rem c <= zlen l ->
              drop nr (take (bc_rem c) l) = take (bc_rem c - nr) (drop nr l)).
    { intros l Hll. unfold take, drop. rewrite skipn_firstn_comm. f_equal. lia. }
    rewrite !Hd in Hm; [exact Hm|right; lia|left; rewrite zlen_byte_bits; lia].
Qed.

Lemma take_add {A} (l : list A) a b : 0 <= a -> 0 <= b ->
  take (a + b) l = take a l ++ take b (drop a l).
Proof.
  intros Ha Hb. unfold take, drop. rewrite Z2Nat.inj_add by lia.
  generalize (Z.to_nat a) (Z.to_nat b); clear; intros a; revert l.
  induction a as [|a IH]; intros l b; cbn; [reflexivity|].
  destruct l; cbn; [now rewrite firstn_nil|]. now rewrite IH.
Qed.

Lemma lor_u32 num nr t : 0 <= nr -> 0 <= t < 2 ^ nr -> nr <= 32 ->
  Z.lor (u32 (Z.shiftl num nr)) t = u32 (num * 2 ^ nr + t).
Proof.
  intros Hn Ht Hle. rewrite shiftl_mul by lia. unfold u32.
  assert (Hp : 2 ^ 32 = 2 ^ nr * 2 ^ (32 - nr)) by (rewrite <- Z.pow_add_r by lia; f_equal; lia).
  assert (0 < 2 ^ nr) by (apply Z.pow_pos_nonneg; lia).
  assert (0 < 2 ^ (32 - nr)) by (apply Z.pow_pos_nonneg; lia).
  rewrite Hp.
  rewrite (Z.mul_comm num), Z.mul_mod_distr_l by lia.
  rewrite (Z.mul_comm (2 ^ nr)), lor_add by lia.
  rewrite Z.rem_mul_r by lia.
  rewrite (Z.add_comm (_ * num)), (Z.mul_comm _ num).
  rewrite Z.mod_add by lia. rewrite Z.div_add by lia.
  rewrite (Z.mod_small t), (Z.div_small t) by lia. rewrite Z.add_0_l. lia.
Qed.

Lemma read_bits_loop_ok fuel : forall c bs n num,
  cur c bs -> bc_rem c <= 7 -> 0 <= n <= zlen bs -> n <= Z.of_nat fuel -> 0 <= num < 2 ^ 32 ->
  exists c', read_bits_loop fuel c n num = Ok (u32 (num * 2 ^ n + bval (take n bs)), c') /\
    cur c' (drop n bs) /\ bc_rem c' <= 7 /\ bc_buf c' = bc_buf c.
Proof.
  induction fuel as [|f IH]; intros c bs n num Hc Hr7 Hn Hf Hnum.
  - cbn [read_bits_loop]. destruct (n <=? 0) eqn:E; [|lia].
    assert (n = 0) as -> by lia. exists c. rewrite Z.pow_0_r, Z.mul_1_r, take_0, drop_0 by lia.
    change (bval []) with 0. rewrite Z.add_0_r. unfold u32; rewrite Z.mod_small by lia. auto.
  - cbn [read_bits_loop]. destruct (n <=? 0) eqn:E.
    + assert (n = 0) as -> by lia. exists c. rewrite Z.pow_0_r, Z.mul_1_r, take_0, drop_0 by lia.
      change (bval []) with 0. rewrite Z.add_0_r. unfold u32; rewrite Z.mod_small by lia. auto.
    + assert (Hex : exists c1, (if bc_rem c =? 0 then bc_next c else Ok c) = Ok c1 /\
                cur c1 bs /\ 1 <= bc_rem c1 /\ bc_buf c1 = bc_buf c).
      { destruct (bc_rem c =? 0) eqn:Er.
        - destruct (cur_next c bs Hc) as (c1 & H1 & H2 & H3 & H4); [lia|lia|].
          exists c1. split; [exact H1|]; split; [exact H2|]; split; [lia|exact H4].
        - exists c. split; [reflexivity|]; split; [exact Hc|]; split; [|reflexivity].
          destruct Hc as (_ & _ & _ & H3 & _); lia. }
      destruct Hex as (c1 & -> & Hc1 & Hr1 & Hb1). cbn [bind].
      assert (Hr8 : bc_rem c1 <= 8) by (destruct Hc1 as (_ & _ & _ & H3 & _); lia).
      set (nr := Z.min n (bc_rem c1)).
      assert (Hnr : 1 <= nr <= bc_rem c1) by (unfold nr; lia).
      destruct (cur_consume c1 bs nr Hc1 Hnr) as (t & Et & Hval & Htr & Hc2).
      rewrite Et; cbn [bind]. rewrite lor_u32 by lia.
      destruct (IH (mkbc (bc_buf c1) (bc_pos c1) (bc_rem c1 - nr) (u8 (Z.shiftl (bc_val c1) nr)))
                   (drop nr bs) (n - nr) (u32 (num * 2 ^ nr + t))) as (c' & -> & Hc' & Hr' & Hb').
      * exact Hc2.
      * cbn [bc_rem]; lia.
      * rewrite zlen_drop by lia; unfold nr; lia.
      * lia.
      * unfold u32; apply Z.mod_pos_bound; lia.
      * exists c'. cbn [bc_buf] in Hb'. split; [|split; [|split; [exact Hr'|congruence]]].
        -- f_equal; f_equal. replace (take n bs) with (take (nr + (n - nr)) bs) by (f_equal; lia).
           rewrite take_add by lia. rewrite bval_app, zlen_take by (rewrite ?zlen_drop; lia).
           rewrite zlen_drop by lia.
           replace (Z.min (n - nr) (Z.max 0 (zlen bs - nr))) with (n - nr) by lia.
           rewrite <- Hval. unfold u32.
           rewrite <- (Z.add_mod_idemp_l ((_ mod _) * _)) by lia.
           rewrite Z.mul_mod_idemp_l by lia.
           rewrite Z.add_mod_idemp_l by lia. f_equal.
           replace (2 ^ n) with (2 ^ nr * 2 ^ (n - nr)) by (rewrite <- Z.pow_add_r by lia; f_equal; lia).
           lia.
        -- rewrite drop_drop in Hc' by lia.
           replace (n - nr + nr) with n in Hc' by lia. exact Hc'.
Qed.

Lemma read_bits_ok c bs n :
  cur c bs -> bc_rem c <= 7 -> 0 <= n <= zlen bs ->
  exists c', read_bits c n = Ok (bval (take n bs) mod 2 ^ 32, c') /\
    cur c' (drop n bs) /\ bc_rem c' <= 7 /\ bc_buf c' = bc_buf c.
Proof.
  intros Hc Hr Hn. unfold read_bits.
  destruct (read_bits_loop_ok (Z.to_nat n) c bs n 0) as (c' & He & H); try assumption; try lia.
  rewrite Z.mul_0_l, Z.add_0_l in He. exists c'; auto.
Qed.

Lemma skip_sweep r v : 1 <= r <= 8 -> byte v ->
  take r (byte_bits (u8 (Z.shiftl v (8 - r)))) = drop (8 - r) (byte_bits v) /\
  byte (u8 (Z.shiftl v (8 - r))).
Proof.
  intros Hr Hv.
  set (chk := fun r v => list_beq (take r (byte_bits (u8 (Z.shiftl v (8 - r))))) (drop (8 - r) (byte_bits v))
                          && byteb (u8 (Z.shiftl v (8 - r)))).
  assert (Hc : chk r v = true).
  { assert (Hs : forallb (fun k => forallb (fun n => chk (Z.of_nat k) (Z.of_nat n)) (seq 0 256))
                         (seq 1 8) = true) by (vm_compute; reflexivity).
    rewrite forallb_forall in Hs. specialize (Hs (Z.to_nat r)).
    rewrite Z2Nat.id in Hs by lia.
    apply (byte_sweep (chk r)); [|exact Hv]. apply Hs. apply in_seq; lia. }
  unfold chk in Hc. apply andb_prop in Hc as [Hc1 Hc2].
  split; [apply list_beq_true; exact Hc1|]. unfold byteb in Hc2; unfold byte; lia.
Qed.

Lemma skip_ok c bs n : cur c bs -> bc_rem c <= 7 -> 0 <= n -> 8 * n <= zlen bs ->
  exists c', skip_read_bytes c n = Ok c' /\ cur c' (drop (8 * n) bs) /\ bc_rem c' <= 7 /\
             bc_buf c' = bc_buf c.
Proof.
  intros Hc Hr7 Hn Hle. pose proof (cur_len _ _ Hc) as Hl.
  destruct Hc as (Hb & H1 & H2 & H3 & H4 & H5 & Hbs & Ht).
  unfold skip_read_bytes. destruct (bc_rem c =? 0) eqn:Er.
  - eexists; split; [reflexivity|]. cbn [bc_rem bc_buf]. split; [|split; [lia|reflexivity]].
    unfold cur; cbn [bc_buf bc_pos bc_rem bc_val].
    repeat split; try assumption; try lia; try apply H5.
    rewrite Hbs, drop_drop by lia. f_equal; lia.
  - destruct (nthz_in_range (bc_buf c) (bc_pos c + n)) as [v Hv]; [lia|].
    rewrite Hv. eexists; split; [reflexivity|]. cbn [bc_rem bc_buf].
    split; [|split; [lia|reflexivity]].
    pose proof (nthz_byte _ _ _ Hb Hv) as Hvb.
    destruct (skip_sweep (bc_rem c) v) as [Hsw Hsb]; [lia|exact Hvb|].
    unfold cur; cbn [bc_buf bc_pos bc_rem bc_val].
    assert (Hd : drop (8 * n) bs = drop (8 * (bc_pos c + n + 1) - bc_rem c) (bits_of (bc_buf c))).
    { rewrite Hbs, drop_drop by lia. f_equal; lia. }
    repeat split; try assumption; try lia; try apply Hsb.
    rewrite Hd, Hsw.
    replace (8 * (bc_pos c + n + 1) - bc_rem c) with ((8 - bc_rem c) + 8 * (bc_pos c + n)) by lia.
    rewrite <- drop_drop by lia. rewrite drop_bits_of by lia.
    rewrite (drop_nth _ _ _ Hv), bits_of_cons.
    rewrite drop_app_le by (rewrite zlen_byte_bits; lia).
    rewrite take_app_exact; [reflexivity|]. rewrite zlen_drop, zlen_byte_bits by lia. lia.
Qed.

Lemma bits_of_bytes_at l i : bytes l -> 0 <= i < zlen l ->
  nthz l i = Some (bval (take 8 (drop (8 * i) (bits_of l)))).
Proof.
  intros Hb Hi. destruct (nthz_in_range l i Hi) as [v Hv].
  rewrite Hv, drop_bits_of by lia. rewrite (drop_nth _ _ _ Hv), bits_of_cons.
  rewrite take_app_exact by reflexivity.
  rewrite bval_byte_bits; [reflexivity|]. eapply nthz_byte; eassumption.
Qed.

Lemma take_as_map {A} (l : list A) n f :
  0 <= n <= zlen l -> (forall i, 0 <= i < n -> nthz l i = Some (f i)) ->
  take n l = map (fun i => f (Z.of_nat i)) (seq 0 (Z.to_nat n)).
Proof.
  intros Hn Hf. unfold take, zlen in *.
  assert (Hk : (Z.to_nat n <= length l)%nat) by lia.
  assert (Hf' : forall i, (i < Z.to_nat n)%nat -> nth_error l i = Some (f (Z.of_nat i))).
  { intros i Hi. specialize (Hf (Z.of_nat i)). unfold nthz in Hf.
    destruct (Z.of_nat i <? 0) eqn:E; [lia|]. rewrite Nat2Z.id in Hf. apply Hf; lia. }
  clear Hf Hn. revert Hk Hf'. generalize (Z.to_nat n); clear n; intros k.
  induction k as [|k IH]; intros Hk Hf; [reflexivity|].
  rewrite seq_S, map_app. cbn [map]. rewrite <- IH; [|lia|intros; apply Hf; lia].
  rewrite Nat.add_0_l. specialize (Hf k ltac:(lia)).
  clear IH. revert l Hk Hf. generalize (f (Z.of_nat k)) as y.
  induction k as [|k IH]; intros y [|x l] Hk Hf; cbn in *; try discriminate.
  - now injection Hf as ->.
  - f_equal. apply IH; [lia|exact Hf].
Qed.

Lemma bytes_at c bs n : cur c bs -> bc_rem c = 0 -> 0 <= n -> 8 * n <= zlen bs ->
  exists c', bc_read_bytes c n =
     Ok (map (fun i => bval (take 8 (drop (8 * Z.of_nat i) bs))) (seq 0 (Z.to_nat n)), c') /\
     cur c' (drop (8 * n) bs) /\ bc_rem c' <= 7 /\ bc_buf c' = bc_buf c.
Proof.
  intros Hc Hr Hn Hle. pose proof (cur_len _ _ Hc) as Hl.
  destruct Hc as (Hb & H1 & H2 & H3 & H4 & H5 & Hbs & Ht).
  unfold bc_read_bytes. rewrite Hr; cbn [Z.eqb negb].
  rewrite slice_some by lia. eexists; split; [|split; [|split]].
  - f_equal; f_equal.
    assert (Hbs' : bs = bits_of (drop (bc_pos c + 1) (bc_buf c))).
    { rewrite Hbs, Hr, Z.sub_0_r. apply drop_bits_of; lia. }
    rewrite Hbs'.
    apply (take_as_map (drop (bc_pos c + 1) (bc_buf c)) n
        (fun i => bval (take 8 (drop (8 * i) (bits_of (drop (bc_pos c + 1) (bc_buf c))))))).
    + rewrite zlen_drop by lia; lia.
    + intros i Hi. apply bits_of_bytes_at; [apply Forall_drop; exact Hb|].
      rewrite zlen_drop by lia; lia.
  - unfold cur; cbn [bc_buf bc_pos bc_rem bc_val].
    repeat split; try assumption; try lia; try apply H5.
    rewrite Hbs, drop_drop by lia. f_equal; lia.
  - cbn [bc_rem]; lia.
  - reflexivity.
Qed.

Lemma bc_step_ok c bs o x bs' : cur c bs -> bc_rem c <= 7 ->
  spec_bit_step bs o = Some (x, bs') ->
  exists c', bc_step c o = Ok (x, c') /\ cur c' bs' /\ bc_rem c' <= 7 /\ bc_buf c' = bc_buf c.
Proof.
  intros Hc Hr Hs. destruct o as [n|n|n]; cbn [spec_bit_step bc_step] in *.
  - destruct ((0 <=? n) && (n <=? zlen bs)) eqn:E; [|discriminate]. injection Hs as <- <-.
    destruct (read_bits_ok c bs n Hc Hr) as (c' & -> & H); [lia|]. cbn [bind fst snd].
    exists c'; split; [reflexivity|exact H].
  - destruct ((0 <=? n) && (8 * n <=? zlen bs)) eqn:E; [|discriminate]. injection Hs as <- <-.
    destruct (skip_ok c bs n Hc Hr) as (c' & -> & H); [lia|lia|]. cbn [bind].
    exists c'; split; [reflexivity|exact H].
  - destruct ((0 <=? n) && (8 * n <=? zlen bs) && (zlen bs mod 8 =? 0)) eqn:E; [|discriminate].
    injection Hs as <- <-.
    assert (Hr0 : bc_rem c = 0).
    { pose proof (cur_len _ _ Hc) as Hl. destruct Hc as (_ & _ & _ & H3 & _).
      assert (Hm : zlen bs mod 8 = 0) by lia. rewrite Hl, Z.add_comm, Z.mul_comm, Z.mod_add in Hm by lia.
      rewrite Z.mod_small in Hm; lia. }
    destruct (bytes_at c bs n Hc Hr0) as (c' & -> & H); [lia|lia|]. cbn [bind fst snd].
    exists c'; split; [reflexivity|exact H].
Qed.

Lemma bc_run_ok ops : forall c bs xs bs', cur c bs -> bc_rem c <= 7 ->
  spec_bit_run bs ops = Some (xs, bs') ->
  exists c', bc_run c ops = Ok (xs, c') /\ cur c' bs' /\ bc_rem c' <= 7 /\ bc_buf c' = bc_buf c.
Proof.
  induction ops as [|o ops IH]; intros c bs xs bs' Hc Hr Hs; cbn [spec_bit_run bc_run] in *.
  - injection Hs as <- <-. exists c; auto.
  - destruct (spec_bit_step bs o) as [[x bs1]|] eqn:E1; [|discriminate].
    destruct (spec_bit_run bs1 ops) as [[ys bs2]|] eqn:E2; [|discriminate].
    injection Hs as <- <-.
    destruct (bc_step_ok c bs o x bs1 Hc Hr E1) as (c1 & -> & Hc1 & Hr1 & Hb1). cbn [bind fst snd].
    destruct (IH c1 bs1 ys bs2 Hc1 Hr1 E2) as (c2 & -> & Hc2 & Hr2 & Hb2). cbn [bind fst snd].
    exists c2; split; [reflexivity|]. split; [exact Hc2|]. split; [exact Hr2|congruence].
Qed.

Lemma size_bits_cur c bs : cur c bs -> zlen (bc_buf c) < 2 ^ 60 -> size_bits c = zlen bs.
Proof.
  intros Hc Hlt. pose proof (cur_len _ _ Hc) as Hl.
  destruct Hc as (Hb & H1 & H2 & H3 & _).
  unfold size_bits, u64. rewrite (Z.mod_small (zlen (bc_buf c) - bc_pos c - 1)) by lia.
  rewrite (Z.mod_small (_ * 8)) by lia. rewrite Z.mod_small by lia. lia.
Qed.

Lemma bit_reader_spec buf ops outs rest : bytes buf -> zlen buf < 2 ^ 60 ->
  spec_bit_run (bits_of buf) ops = Some (outs, rest) ->
  exists c, bc_run (bc_init buf) ops = Ok (outs, c) /\ bc_buf c = buf /\ size_bits c = zlen rest.
Proof.
  intros Hb Hlt Hs.
  destruct (bc_run_ok ops (bc_init buf) (bits_of buf) outs rest) as (c & Hrun & Hc & Hr & Hbuf).
  - apply cur_init; exact Hb.
  - cbn; lia.
  - exact Hs.
  - exists c. cbn [bc_buf bc_init] in Hbuf. split; [exact Hrun|]. split; [exact Hbuf|].
    apply size_bits_cur; [exact Hc|]. rewrite Hbuf; exact Hlt.
Qed.

(** The bounds check is exact at every cursor reached by in-range reads. *)
Lemma bit_acquire_spec buf ops outs rest : bytes buf -> zlen buf < 2 ^ 60 ->
  spec_bit_run (bits_of buf) ops = Some (outs, rest) ->
  exists c, bc_run (bc_init buf) ops = Ok (outs, c) /\
    (forall n, 0 <= n ->
       (acquire_bits c n = Ok tt <-> n <= zlen rest) /\
       (acquire_bits c n = Ok tt -> exists c', read_bits c n = Ok (bval (take n rest) mod 2 ^ 32, c')) /\
       (acquire_bits c n <> Ok tt -> acquire_bits c n = Err ERROR_IO_NOT_ENOUGH)) /\
    (forall k, 0 <= k < 2 ^ 29 -> (bc_acquire c k = Ok tt <-> 8 * k <= zlen rest)).
Proof.
  intros Hb Hlt Hs.
  destruct (bc_run_ok ops (bc_init buf) (bits_of buf) outs rest) as (c & Hrun & Hc & Hr & Hbuf);
    [apply cur_init; exact Hb|cbn; lia|exact Hs|].
  cbn [bc_buf bc_init] in Hbuf.
  assert (Hsz : size_bits c = zlen rest) by (apply size_bits_cur; [exact Hc|rewrite Hbuf; exact Hlt]).
  exists c. split; [exact Hrun|].
  assert (Hacq : forall n, acquire_bits c n = Ok tt <-> n <= zlen rest).
  { intros n. unfold acquire_bits. rewrite Hsz.
    destruct (n <=? zlen rest) eqn:E; split; intros; try discriminate; try lia; reflexivity. }
  split.
  - intros n Hn. split; [apply Hacq|]. split.
    + intros Ha. apply Hacq in Ha.
      destruct (read_bits_ok c rest n Hc Hr) as (c' & He & _); [lia|]. exists c'; exact He.
    + unfold acquire_bits. destruct (n <=? size_bits c); congruence.
  - intros k Hk. unfold bc_acquire, u32. rewrite Z.mod_small by lia.
    rewrite Hacq. lia.
Qed.
