(** Packed fields against the bit cursor. *)
From Verif Require Import Base M_Bits S_Bits L_Bits L_BitsW M_Fields L_Align S_Fields.

Lemma pack_acc fs : forall a, Forall (fun f => 0 <= snd f) fs ->
  fold_left (fun a f => a * 2 ^ snd f + fst f) fs a = a * 2 ^ zsum (map snd fs) + pack fs.
Proof.
  unfold pack. induction fs as [|f fs IH]; intros a H; cbn [fold_left map zsum].
  - rewrite Z.pow_0_r. lia.
  - inversion H; subst. rewrite IH, (IH (0 * _ + _)) by assumption.
    assert (0 <= zsum (map snd fs)) by (clear - H3; induction H3; cbn [map zsum]; lia).
    rewrite Z.pow_add_r by lia. lia.
Qed.
Lemma pack_cons f fs : Forall (fun f => 0 <= snd f) (f :: fs) ->
  pack (f :: fs) = fst f * 2 ^ zsum (map snd fs) + pack fs.
Proof. intros H. inversion H; subst. unfold pack at 1. cbn [fold_left]. rewrite pack_acc by assumption. lia. Qed.

Definition widths_ok (ws : list Z) : bool := forallb (fun w => (0 <=? w) && (w <=? 32)) ws.
Lemma widths_ok_forall ws : widths_ok ws = true -> Forall (fun w => 0 <= w <= 32) ws.
Proof.
  unfold widths_ok. intros H. apply Forall_forall. intros w Hin. rewrite forallb_forall in H.
  specialize (H w Hin). lia.
Qed.
Lemma zsum_pos ws : widths_ok ws = true -> 0 <= zsum ws.
Proof. intros H. apply zsum_nonneg, widths_ok_forall, H. Qed.

Lemma pack_range fs : widths_ok (map snd fs) = true -> fields_fit fs = true ->
  0 <= pack fs < 2 ^ zsum (map snd fs).
Proof.
  induction fs as [|[v w] fs IH]; intros Hw Hf; [cbn; lia|].
  assert (HF : Forall (fun f : Z * Z => 0 <= snd f) ((v, w) :: fs)).
  { apply widths_ok_forall in Hw. clear - Hw. change ((v, w) :: fs) with ([(v, w)] ++ fs) in *.
    remember ([(v, w)] ++ fs) as l. clear - Hw. induction l as [|x l IH]; constructor;
    inversion Hw; subst; [lia|apply IH; assumption]. }
  rewrite pack_cons by assumption. cbn [map snd fst zsum] in *.
  unfold widths_ok, fields_fit in *. cbn [forallb fst snd] in *.
  apply andb_prop in Hw as [Hw0 Hw]. apply andb_prop in Hf as [Hf0 Hf].
  specialize (IH Hw Hf). pose proof (zsum_pos _ Hw) as Hz. rewrite Z.pow_add_r by lia.
  assert (0 < 2 ^ w) by (apply Z.pow_pos_nonneg; lia). nia.
Qed.

Lemma nbits_pack fs : widths_ok (map snd fs) = true -> fields_fit fs = true ->
  nbits (zsum (map snd fs)) (pack fs) = flat_map (fun f => nbits (snd f) (fst f)) fs.
Proof.
  induction fs as [|[v w] fs IH]; intros Hw Hf; [reflexivity|].
  assert (HF : Forall (fun f : Z * Z => 0 <= snd f) ((v, w) :: fs)).
  { apply widths_ok_forall in Hw. remember ((v, w) :: fs) as l. clear - Hw.
    induction l as [|x l IH]; constructor; inversion Hw; subst; [lia|apply IH; assumption]. }
  rewrite pack_cons by assumption. cbn [map snd fst zsum flat_map] in *.
  assert (Hw1 := Hw). assert (Hf1 := Hf).
  unfold widths_ok, fields_fit in Hw1, Hf1. cbn [forallb fst snd] in *.
  apply andb_prop in Hw1 as [Hw0 Hw1]. apply andb_prop in Hf1 as [Hf0 Hf1].
  specialize (IH Hw1 Hf1). pose proof (zsum_pos _ Hw1) as Hz. pose proof (pack_range fs Hw1 Hf1) as Hr.
  rewrite (nbits_split _ (zsum (map snd fs))) by lia. rewrite <- IH. f_equal.
  - replace (w + zsum (map snd fs) - zsum (map snd fs)) with w by lia.
    rewrite shiftr_div, Z.div_add_l, Z.div_small by lia. f_equal. lia.
  - apply nbits_ext; [lia|]. rewrite Z.add_comm, Z.mod_add by lia. reflexivity.
Qed.

Lemma fields_of_flat fs : forall tl, widths_ok (map snd fs) = true -> fields_fit fs = true ->
  bit_fields (flat_map (fun f => nbits (snd f) (fst f)) fs ++ tl) (map snd fs) = map fst fs.
Proof.
  induction fs as [|[v w] fs IH]; intros tl Hw Hf; [reflexivity|].
  cbn [map snd fst flat_map bit_fields]. unfold widths_ok, fields_fit in *. cbn [map snd fst forallb] in *.
  apply andb_prop in Hw as [Hw0 Hw]. apply andb_prop in Hf as [Hf0 Hf].
  rewrite <- app_assoc. rewrite take_app_exact, drop_app_exact by (rewrite zlen_nbits by lia; reflexivity).
  rewrite IH by assumption. rewrite bval_nbits, Z.mod_small by lia. reflexivity.
Qed.

Lemma bits_of_be k v : bits_of (be k v) = nbits (8 * Z.of_nat k) v.
Proof.
  apply bval_inj.
  - rewrite zlen_bits_of, zlen_be, zlen_nbits by lia. lia.
  - rewrite bval_bits_of by apply be_bytes. rewrite bev_be, bval_nbits by lia.
    rewrite Z.pow_mul_r by lia. reflexivity.
Qed.

(** Reading back a packed header. *)
Lemma fields_packed k fs tl : widths_ok (map snd fs) = true -> fields_fit fs = true ->
  zsum (map snd fs) = 8 * Z.of_nat k ->
  bit_fields (bits_of (be k (pack fs) ++ tl)) (map snd fs) = map fst fs.
Proof.
  intros Hw Hf Hs. rewrite bits_of_app, bits_of_be, <- Hs, nbits_pack by assumption.
  apply fields_of_flat; assumption.
Qed.

(** Every header is the packing of its fields. *)
Lemma pack_of_fields ws : forall bs, widths_ok ws = true -> zsum ws <= zlen bs ->
  pack (combine (bit_fields bs ws) ws) = bval (take (zsum ws) bs) /\
  fields_fit (combine (bit_fields bs ws) ws) = true.
Proof.
  induction ws as [|w ws IH]; intros bs Hw Hs; cbn [bit_fields combine zsum] in *.
  - rewrite take_0 by lia. split; reflexivity.
  - assert (Hw1 := Hw). unfold widths_ok in Hw1. cbn [forallb] in Hw1. apply andb_prop in Hw1 as [Hw0 Hw1].
    pose proof (zsum_pos _ Hw1) as Hz.
    destruct (IH (drop w bs) Hw1) as [E F]; [rewrite zlen_drop by lia; lia|].
    assert (Es : map snd (combine (bit_fields (drop w bs) ws) ws) = ws).
    { clear. generalize (drop w bs). induction ws as [|x ws IH]; intros l; [reflexivity|].
      cbn [bit_fields combine map snd]. rewrite IH. reflexivity. }
    assert (HF : Forall (fun f : Z * Z => 0 <= snd f) ((bval (take w bs), w) :: combine (bit_fields (drop w bs) ws) ws)).
    { constructor; [cbn [snd]; lia|]. apply Forall_forall. intros [v u] Hin.
      apply in_combine_r in Hin. apply widths_ok_forall in Hw1. rewrite Forall_forall in Hw1.
      specialize (Hw1 _ Hin). cbn [snd]. lia. }
    rewrite pack_cons by assumption. rewrite Es, E. cbn [fst].
    rewrite take_add by lia. rewrite bval_app.
    rewrite zlen_take, zlen_drop by lia.
    replace (Z.min (zsum ws) (Z.max 0 (zlen bs - w))) with (zsum ws) by lia.
    split; [reflexivity|].
    unfold fields_fit in *. cbn [forallb fst snd]. rewrite F, andb_true_r.
    pose proof (bval_range (take w bs)) as Hr. rewrite zlen_take in Hr by lia. rewrite Z.min_l in Hr by lia. lia.
Qed.
Lemma header_repack k l ws : bytes l -> zlen l = Z.of_nat k -> widths_ok ws = true ->
  zsum ws = 8 * Z.of_nat k ->
  l = be k (pack (combine (bit_fields (bits_of l) ws) ws)) /\
  fields_fit (combine (bit_fields (bits_of l) ws) ws) = true.
Proof.
  intros Hb Hl Hw Hs.
  destruct (pack_of_fields ws (bits_of l) Hw) as [E F]; [rewrite zlen_bits_of; lia|].
  split; [|exact F]. rewrite E, Hs, take_all by (rewrite zlen_bits_of; lia).
  rewrite bval_bits_of by assumption. symmetry.
  replace k with (length l) by (unfold zlen in Hl; lia). apply be_bev; assumption.
Qed.

(** Running out of bits. *)
Lemma read_bits_short fuel : forall c bs n num,
  cur c bs -> zlen bs < n -> n <= Z.of_nat fuel ->
  read_bits_loop fuel c n num = UB.
Proof.
  induction fuel as [|f IH]; intros c bs n num Hc Hn Hf; pose proof (zlen_nonneg bs) as H0; [lia|].
  pose proof (cur_len _ _ Hc) as Hlen. assert (Hcs := Hc). destruct Hcs as (_ & _ & Hpos & Hrem & _).
  cbn [read_bits_loop]. destruct (n <=? 0) eqn:E; [lia|].
  destruct (bc_rem c =? 0) eqn:Er.
  - destruct (Z.eq_dec (zlen bs) 0) as [Hz|Hz].
    + unfold bc_next. rewrite Er. cbn [negb].
      destruct (nthz (bc_buf c) (bc_pos c + 1)) eqn:En; [|reflexivity].
      apply nthz_some_range in En. lia.
    + destruct (cur_next c bs Hc) as (c1 & -> & Hc1 & Hr1 & Hb1); [lia|lia|]. cbn [bind].
      set (nr := Z.min n (bc_rem c1)).
      destruct (cur_consume c1 bs nr Hc1) as (t & -> & _ & _ & Hc2); [unfold nr; lia|]. cbn [bind].
      apply (IH _ (drop nr bs)); [exact Hc2|rewrite zlen_drop by (unfold nr; lia); unfold nr; lia|unfold nr; lia].
  - cbn [bind]. set (nr := Z.min n (bc_rem c)).
    assert (0 <= bc_rem c) by (destruct Hc as (_ & _ & _ & H3 & _); lia).
    destruct (cur_consume c bs nr Hc) as (t & -> & _ & _ & Hc2); [unfold nr; lia|]. cbn [bind].
    apply (IH _ (drop nr bs)); [exact Hc2|rewrite zlen_drop by (unfold nr; lia); unfold nr; lia|unfold nr; lia].
Qed.
Lemma al_bits_UB buf c rest n : al buf c rest -> 8 * zlen rest < n -> read_bits c n = UB.
Proof.
  intros H Hn. destruct (al_cur _ _ _ H) as [Hc H7]. unfold read_bits.
  apply (read_bits_short _ _ (bits_of rest)); try assumption; [rewrite zlen_bits_of; lia|].
  pose proof (zlen_nonneg rest). lia.
Qed.
