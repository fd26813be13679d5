(** The bit cursor at byte boundaries. *)
From Verif Require Import Base M_Bits S_Bits L_Bits L_BitsW M_Fields.

(** [c] is byte aligned inside [buf] with [rest] left. *)
Definition al (buf : list Z) (c : bitctx) (rest : list Z) : Prop :=
  bytes buf /\ zlen buf < 2 ^ 60 /\ bc_buf c = buf /\ bc_rem c = 0 /\ byte (bc_val c) /\
  0 <= bc_pos c + 1 <= zlen buf /\ rest = drop (bc_pos c + 1) buf.

Lemma al_init buf : bytes buf -> zlen buf < 2 ^ 60 -> al buf (bc_init buf) buf.
Proof.
  intros Hb Hl. unfold al, bc_init; cbn [bc_buf bc_rem bc_val bc_pos]. pose proof (zlen_nonneg buf).
  assert (byte 0) by (unfold byte; lia).
  split; [assumption|]. split; [assumption|]. split; [reflexivity|]. split; [reflexivity|].
  split; [assumption|]. split; [lia|]. reflexivity.
Qed.

Lemma al_cur buf c rest : al buf c rest -> cur c (bits_of rest) /\ bc_rem c <= 7.
Proof.
  intros (Hb & Hl & Eb & Er & Hv & Hp & ->). unfold cur. rewrite Eb, Er.
  split; [|lia]. split; [assumption|]. split; [lia|]. split; [lia|]. split; [lia|]. split; [lia|].
  split; [assumption|]. split.
  - rewrite Z.sub_0_r, drop_bits_of by lia. reflexivity.
  - rewrite !take_0 by lia. reflexivity.
Qed.

Lemma cur_al buf c rest : bc_buf c = buf -> zlen buf < 2 ^ 60 -> cur c (bits_of rest) -> bytes rest ->
  bc_rem c <= 7 -> al buf c rest.
Proof.
  intros Eb Hl Hc Hr H7. pose proof (cur_len _ _ Hc) as HL. rewrite zlen_bits_of in HL.
  destruct Hc as (Hb & H1 & H2 & H3 & H4 & H5 & H6 & H8). rewrite Eb in *.
  assert (E0 : bc_rem c = 0) by lia.
  unfold al. rewrite E0 in *. split; [assumption|]. split; [assumption|]. split; [assumption|].
  split; [reflexivity|]. split; [assumption|]. split; [lia|].
  rewrite Z.sub_0_r, drop_bits_of in H6 by lia.
  apply bits_of_inj in H6; [assumption|assumption|]. apply Forall_drop; assumption.
Qed.

Lemma al_bytes buf c rest : al buf c rest -> bytes rest.
Proof. intros (Hb & _ & _ & _ & _ & _ & ->). apply Forall_drop; assumption. Qed.
Lemma al_len buf c rest : al buf c rest -> zlen rest = zlen buf - (bc_pos c + 1).
Proof. intros (Hb & Hl & _ & _ & _ & Hp & ->). rewrite zlen_drop by lia. lia. Qed.
Lemma al_le buf c rest : al buf c rest -> zlen rest <= zlen buf.
Proof. intros H. pose proof (al_len _ _ _ H). destruct H as (_ & _ & _ & _ & _ & Hp & _). lia. Qed.

Lemma al_size_bits buf c rest : al buf c rest -> size_bits c = 8 * zlen rest.
Proof.
  intros H. destruct (al_cur _ _ _ H) as [Hc _].
  rewrite (size_bits_cur _ _ Hc), zlen_bits_of; [reflexivity|].
  destruct H as (_ & Hl & -> & _). assumption.
Qed.
Lemma al_size buf c rest : al buf c rest -> bc_size c = zlen rest.
Proof. intros H. unfold bc_size. rewrite (al_size_bits _ _ _ H). rewrite Z.mul_comm, Z.div_mul; lia. Qed.
Lemma al_acquire buf c rest k : al buf c rest -> 0 <= k < 2 ^ 29 ->
  bc_acquire c k = if k <=? zlen rest then Ok tt else Err ERROR_IO_NOT_ENOUGH.
Proof.
  intros H Hk. unfold bc_acquire, acquire_bits. rewrite (al_size_bits _ _ _ H).
  unfold u32. rewrite Z.mod_small by lia.
  destruct (Z.leb_spec (k * 8) (8 * zlen rest)); destruct (Z.leb_spec k (zlen rest)); try lia; reflexivity.
Qed.
Lemma al_acquire_ok buf c rest k : al buf c rest -> 0 <= k < 2 ^ 29 -> k <= zlen rest ->
  bc_acquire c k = Ok tt.
Proof. intros H Hk Hl. rewrite (al_acquire _ _ _ _ H Hk). destruct (Z.leb_spec k (zlen rest)); [reflexivity|lia]. Qed.
Lemma al_acquire_no buf c rest k : al buf c rest -> 0 <= k < 2 ^ 29 -> zlen rest < k ->
  bc_acquire c k = Err ERROR_IO_NOT_ENOUGH.
Proof. intros H Hk Hl. rewrite (al_acquire _ _ _ _ H Hk). destruct (Z.leb_spec k (zlen rest)); [lia|reflexivity]. Qed.
Lemma al_acquire_inv buf c rest k : al buf c rest -> 0 <= k < 2 ^ 29 -> bc_acquire c k = Ok tt -> k <= zlen rest.
Proof. intros H Hk. rewrite (al_acquire _ _ _ _ H Hk). destruct (Z.leb_spec k (zlen rest)); [auto|discriminate]. Qed.

Lemma al_skip buf c rest n : al buf c rest -> 0 <= n <= zlen rest ->
  exists c', skip_read_bytes c n = Ok c' /\ al buf c' (drop n rest).
Proof.
  intros H Hn. pose proof (al_len _ _ _ H) as HL.
  destruct H as (Hb & Hl & Eb & Er & Hv & Hp & ->). unfold skip_read_bytes. rewrite Er. cbn [Z.eqb].
  eexists; split; [reflexivity|]. unfold al; cbn [bc_buf bc_rem bc_val bc_pos].
  split; [assumption|]. split; [assumption|]. split; [assumption|]. split; [reflexivity|].
  split; [assumption|]. split; [lia|]. rewrite drop_drop by lia. f_equal; lia.
Qed.

Lemma al_peek buf c rest n : al buf c rest -> 0 <= n <= zlen rest -> bc_peek c n = Ok (take n rest).
Proof.
  intros H Hn. pose proof (al_len _ _ _ H) as HL.
  destruct H as (Hb & Hl & Eb & Er & Hv & Hp & ->). unfold bc_peek, bc_off. rewrite Er, Eb. cbn [Z.ltb Z.compare].
  rewrite slice_some by lia. reflexivity.
Qed.
Lemma al_peek_UB buf c rest n : al buf c rest -> n < 0 \/ zlen rest < n -> bc_peek c n = UB.
Proof.
  intros H Hn. pose proof (al_len _ _ _ H) as HL.
  destruct H as (Hb & Hl & Eb & Er & Hv & Hp & ->). unfold bc_peek, bc_off, slice. rewrite Er, Eb. cbn [Z.ltb Z.compare].
  destruct (Z.leb_spec 0 (bc_pos c + 1)); [|lia]. destruct (Z.leb_spec 0 n); cbn [andb]; [|reflexivity].
  destruct (Z.leb_spec (bc_pos c + 1 + n) (zlen buf)); [lia|reflexivity].
Qed.

Lemma al_read_bytes buf c rest n : al buf c rest -> 0 <= n <= zlen rest ->
  exists c', bc_read_bytes c n = Ok (take n rest, c') /\ al buf c' (drop n rest).
Proof.
  intros H Hn. pose proof (al_len _ _ _ H) as HL.
  destruct H as (Hb & Hl & Eb & Er & Hv & Hp & ->). unfold bc_read_bytes. rewrite Er, Eb. cbn [Z.eqb negb].
  rewrite slice_some by lia. eexists; split; [reflexivity|].
  unfold al; cbn [bc_buf bc_rem bc_val bc_pos].
  split; [assumption|]. split; [assumption|]. split; [reflexivity|]. split; [reflexivity|].
  split; [assumption|]. split; [lia|]. rewrite drop_drop by lia. f_equal; lia.
Qed.

(** ** Fields *)
Fixpoint bit_fields (bs : list bool) (ws : list Z) : list Z :=
  match ws with [] => [] | w :: ws' => bval (take w bs) :: bit_fields (drop w bs) ws' end.
Fixpoint zsum (ws : list Z) : Z := match ws with [] => 0 | w :: ws' => w + zsum ws' end.

Lemma zsum_nonneg ws : Forall (fun w => 0 <= w <= 32) ws -> 0 <= zsum ws.
Proof. induction 1; cbn [zsum]; lia. Qed.

Lemma read_fields_ok ws : forall c bs, cur c bs -> bc_rem c <= 7 ->
  Forall (fun w => 0 <= w <= 32) ws -> zsum ws <= zlen bs ->
  exists c', read_fields c ws = Ok (bit_fields bs ws, c') /\ cur c' (drop (zsum ws) bs) /\
    bc_rem c' <= 7 /\ bc_buf c' = bc_buf c.
Proof.
  induction ws as [|w ws IH]; intros c bs Hc H7 Hw Hs; cbn [read_fields bit_fields zsum] in *.
  - exists c. rewrite drop_0 by lia. auto.
  - inversion Hw; subst. pose proof (zsum_nonneg _ H2).
    destruct (read_bits_ok c bs w Hc H7) as (c1 & E1 & Hc1 & H71 & Eb1); [lia|].
    rewrite E1. cbn [bind fst snd].
    destruct (IH c1 (drop w bs) Hc1 H71 H2) as (c2 & E2 & Hc2 & H72 & Eb2).
    { rewrite zlen_drop by lia. lia. }
    rewrite E2. cbn [bind fst snd]. exists c2.
    rewrite drop_drop in Hc2 by lia. replace (zsum ws + w) with (w + zsum ws) in Hc2 by lia.
    split; [|split; [assumption|split; [assumption|congruence]]].
    rewrite Z.mod_small; [reflexivity|].
    pose proof (bval_range (take w bs)) as Hr. rewrite zlen_take in Hr by lia.
    rewrite Z.min_l in Hr by lia.
    assert (2 ^ w <= 2 ^ 32) by (apply Z.pow_le_mono_r; lia). lia.
Qed.

Lemma al_fields buf c rest ws k : al buf c rest -> forallb (fun w => (0 <=? w) && (w <=? 32)) ws = true ->
  zsum ws = 8 * k -> k <= zlen rest ->
  exists c', read_fields c ws = Ok (bit_fields (bits_of rest) ws, c') /\ al buf c' (drop k rest).
Proof.
  intros H Hw Hs Hk. pose proof (al_bytes _ _ _ H) as Hby. destruct (al_cur _ _ _ H) as [Hc H7].
  assert (Hw' : Forall (fun w => 0 <= w <= 32) ws).
  { apply Forall_forall. intros w Hin. rewrite forallb_forall in Hw. specialize (Hw w Hin). lia. }
  pose proof (zsum_nonneg _ Hw').
  destruct (read_fields_ok ws c _ Hc H7 Hw') as (c1 & E1 & Hc1 & H71 & Eb1).
  { rewrite zlen_bits_of. lia. }
  exists c1. split; [exact E1|]. rewrite Hs, drop_bits_of in Hc1 by lia.
  destruct H as (Hb & Hl & Eb & _).
  apply cur_al; try assumption; [congruence|]. apply Forall_drop; assumption.
Qed.

Lemma al_bits buf c rest n k : al buf c rest -> 0 <= n <= 32 -> n = 8 * k -> k <= zlen rest ->
  exists c', read_bits c n = Ok (bval (take n (bits_of rest)), c') /\ al buf c' (drop k rest).
Proof.
  intros H Hn Hk Hl. destruct (al_fields buf c rest [n] k H) as (c' & E & Ha).
  - cbn. lia.
  - cbn [zsum]. lia.
  - assumption.
  - exists c'. split; [|assumption]. cbn [read_fields] in E.
    destruct (read_bits c n) as [[v c1]| | |] eqn:ER; cbn [bind fst snd] in E; try discriminate.
    injection E as -> ->. reflexivity.
Qed.

(** Bit fields as arithmetic on the big-endian value of the bytes. *)
Lemma bval_bits_of l : bytes l -> bval (bits_of l) = bev l.
Proof.
  induction l as [|x l IH]; intros H; [reflexivity|].
  apply bytes_cons in H as [Hx Hl]. rewrite bits_of_cons, bval_app, bev_cons, zlen_bits_of, IH by assumption.
  rewrite bval_byte_bits by assumption. rewrite Z.pow_mul_r by (pose proof (zlen_nonneg l); lia). reflexivity.
Qed.
Lemma bval_take_div bs w : 0 <= w <= zlen bs -> bval (take w bs) = bval bs / 2 ^ (zlen bs - w).
Proof.
  intros Hw. rewrite <- (take_drop w bs) at 2. rewrite bval_app.
  pose proof (bval_range (drop w bs)) as Hr. rewrite zlen_drop in * by lia.
  replace (Z.max 0 (zlen bs - w)) with (zlen bs - w) in * by lia.
  rewrite Z.div_add_l by lia. rewrite Z.div_small by lia. lia.
Qed.
Lemma bval_drop_mod bs w : 0 <= w <= zlen bs -> bval (drop w bs) = bval bs mod 2 ^ (zlen bs - w).
Proof.
  intros Hw. rewrite <- (take_drop w bs) at 2. rewrite bval_app.
  pose proof (bval_range (drop w bs)) as Hr. rewrite zlen_drop in * by lia.
  replace (Z.max 0 (zlen bs - w)) with (zlen bs - w) in * by lia.
  rewrite Z.add_comm, Z.mod_add by lia. rewrite Z.mod_small by lia. reflexivity.
Qed.
Lemma take_bits_of k l : 0 <= k -> take (8 * k) (bits_of l) = bits_of (take k l).
Proof.
  intros Hk. destruct (Z_le_dec k (zlen l)).
  - rewrite <- (take_drop k l) at 1. rewrite bits_of_app. apply take_app_exact.
    rewrite zlen_bits_of, zlen_take by lia. lia.
  - rewrite !take_all; [reflexivity|lia|rewrite zlen_bits_of; lia].
Qed.
Lemma bval_take_bytes k l n : bytes l -> 0 <= k -> n = 8 * k -> bval (take n (bits_of l)) = bev (take k l).
Proof. intros Hb Hk ->. rewrite take_bits_of, bval_bits_of by (try apply Forall_take; assumption). reflexivity. Qed.
Lemma bit_fields_app bs ws1 : forall ws2, Forall (fun w => 0 <= w <= 32) ws1 ->
  bit_fields bs (ws1 ++ ws2) = bit_fields bs ws1 ++ bit_fields (drop (zsum ws1) bs) ws2.
Proof.
  revert bs; induction ws1 as [|w ws1 IH]; intros bs ws2 H; cbn [app bit_fields zsum].
  - rewrite drop_0 by lia. reflexivity.
  - inversion H; subst. rewrite IH by assumption. rewrite drop_drop; [|apply zsum_nonneg; assumption|lia].
    rewrite (Z.add_comm (zsum ws1)). reflexivity.
Qed.
(** Fields that lie inside a prefix do not depend on what follows. *)
Lemma bit_fields_prefix ws : forall a b, Forall (fun w => 0 <= w <= 32) ws -> zsum ws <= zlen a ->
  bit_fields (a ++ b) ws = bit_fields a ws.
Proof.
  induction ws as [|w ws IH]; intros a b H Hs; cbn [bit_fields zsum] in *; [reflexivity|].
  inversion H; subst. pose proof (zsum_nonneg _ H3).
  rewrite take_app_le, drop_app_le by lia. rewrite IH; [reflexivity|assumption|rewrite zlen_drop; lia].
Qed.
Lemma bit_fields_length bs ws : length (bit_fields bs ws) = length ws.
Proof. revert bs; induction ws; intros; cbn [bit_fields length]; auto. Qed.

(** ** Aligned writing *)
Definition wal (n : Z) (c : bitctx) (done : list Z) : Prop :=
  zlen (bc_buf c) = n /\ bc_rem c = 0 /\ bc_pos c + 1 = zlen done /\ zlen done <= n /\
  take (zlen done) (bc_buf c) = done.

Lemma wal_init buf : wal (zlen buf) (bc_init buf) [].
Proof. unfold wal, bc_init; cbn [bc_buf bc_rem bc_pos]. pose proof (zlen_nonneg buf). change (zlen (@nil Z)) with 0.
  rewrite take_0 by lia. repeat split; lia. Qed.

Lemma take_set_next (l : list Z) (d : list Z) v : take (zlen d) l = d -> zlen d < zlen l ->
  take (zlen (d ++ [v])) (take (zlen d) l ++ [v] ++ drop (zlen d + 1) l) = d ++ [v].
Proof.
  intros E H. rewrite E. rewrite app_assoc. apply take_app_exact. reflexivity.
Qed.

Lemma setz_eq (l : list Z) i v : 0 <= i < zlen l -> setz l i v = Some (take i l ++ [v] ++ drop (i + 1) l).
Proof. intros Hi; unfold setz. destruct ((0 <=? i) && (i <? zlen l)) eqn:E; [reflexivity|lia]. Qed.

Lemma land255 x : Z.land 0xff x = x mod 256.
Proof. rewrite Z.land_comm. apply (land_ones_mod x 8); reflexivity || lia. Qed.

Lemma wal_write_loop k : forall fuel c done v n, wal n c done -> zlen done + Z.of_nat k <= n ->
  8 * Z.of_nat k <= Z.of_nat fuel -> Z.of_nat k <= 8 ->
  exists c', write_bits_loop fuel c v (8 * Z.of_nat k) = Ok c' /\ wal n c' (done ++ be k v).
Proof.
  induction k as [|k IH]; intros fuel c done v n Hw Hn Hf Hk.
  - exists c. split; [|cbn [be]; rewrite app_nil_r; exact Hw]. destruct fuel; reflexivity.
  - destruct fuel as [|f]; [lia|]. cbn [write_bits_loop].
    replace (8 * Z.of_nat (S k) <=? 0) with false by lia.
    destruct Hw as (Hb & Hr & Hp & Hd & Ht). rewrite Hr. cbn [Z.eqb].
    pose proof (zlen_nonneg done) as Hd0. unfold bc_next_write. rewrite Hr. cbn [Z.eqb negb].
    rewrite setz_eq by lia. cbn [bind bc_rem bc_buf bc_pos bc_val].
    replace (Z.min 8 (8 * Z.of_nat (S k))) with 8 by lia.
    replace (64 <=? 8 * Z.of_nat (S k) - 8) with false by lia.
    change (nthz write_masks (8 - 1)) with (Some 0xff). cbn [of_opt bind].
    rewrite land255.
    assert (Hz : zlen (take (bc_pos c + 1) (bc_buf c)) = zlen done) by (rewrite Hp, Ht; reflexivity).
    rewrite nthz_app_r by lia. rewrite Hz, Hp, Z.sub_diag. cbn [app]. rewrite nthz_0. cbn [of_opt bind].
    rewrite Z.lor_0_l. change (8 - 8) with 0. rewrite Z.shiftl_0_r.
    set (b := Z.shiftr v (8 * Z.of_nat (S k) - 8) mod 256).
    assert (Hbb : 0 <= b < 256) by (apply Z.mod_pos_bound; lia).
    assert (Hu : u8 b = b) by (unfold u8; apply Z.mod_small; lia). rewrite Hu.
    rewrite Ht. rewrite setz_eq.
    2:{ rewrite zlen_app, zlen_cons, zlen_drop by lia. pose proof (zlen_nonneg done). lia. }
    cbn [of_opt bind]. rewrite take_app_exact by reflexivity.
    rewrite drop_app_ge by lia. replace (zlen done + 1 - zlen done) with 1 by lia.
    rewrite drop_cons by lia. change (1 - 1) with 0. rewrite (drop_0 0) by lia.
    replace (8 * Z.of_nat (S k) - 8) with (8 * Z.of_nat k) by lia.
    assert (Ebe : be (S k) v = b :: be k v).
    { clear - k. subst b. replace (8 * Z.of_nat (S k) - 8) with (8 * Z.of_nat k) by lia.
      rewrite shiftr_div by lia.
      revert v. induction k as [|k IHk]; intros v.
      - cbn [be app]. change (8 * Z.of_nat 0) with 0. rewrite Z.pow_0_r, Z.div_1_r. reflexivity.
      - change (be (S (S k)) v) with (be (S k) (v / 256) ++ [v mod 256]). rewrite IHk.
        change (be (S k) v) with (be k (v / 256) ++ [v mod 256]). cbn [app].
        f_equal. rewrite Z.div_div by lia. f_equal. f_equal.
        replace (8 * Z.of_nat (S k)) with (8 + 8 * Z.of_nat k) by lia. rewrite Z.pow_add_r by lia. reflexivity. }
    rewrite Ebe. replace (done ++ b :: be k v) with ((done ++ [b]) ++ be k v) by (rewrite <- app_assoc; reflexivity).
    assert (HS : zlen (done ++ [b]) = zlen done + 1) by (rewrite zlen_app, zlen_cons, zlen_nil; lia).
    apply IH.
    + unfold wal; cbn [bc_buf bc_rem bc_pos]. rewrite HS. split.
      * rewrite !zlen_app, zlen_cons, zlen_nil, zlen_drop by lia. pose proof (zlen_nonneg done). lia.
      * split; [reflexivity|]. split; [lia|]. split; [lia|].
        rewrite app_assoc. apply take_app_exact. lia.
    + lia.
    + lia.
    + lia.
Qed.
Lemma wal_write n c done k v w : wal n c done -> w = 8 * Z.of_nat k -> Z.of_nat k <= 8 ->
  zlen done + Z.of_nat k <= n ->
  exists c', write_bits c v w = Ok c' /\ wal n c' (done ++ be k v).
Proof. intros H -> Hk Hn. unfold write_bits. apply wal_write_loop; try assumption; lia. Qed.
Lemma wal_write_bytes n c done l : wal n c done -> zlen done + zlen l <= n ->
  exists c', bc_write_bytes c l = Ok c' /\ wal n c' (done ++ l).
Proof.
  intros (Hb & Hr & Hp & Hd & Ht) Hn. unfold bc_write_bytes. rewrite Hr. cbn [Z.eqb negb].
  pose proof (zlen_nonneg done). pose proof (zlen_nonneg l).
  rewrite slice_some by lia. eexists; split; [reflexivity|].
  unfold wal; cbn [bc_buf bc_rem bc_pos]. rewrite Hp, Ht.
  rewrite !zlen_app. split; [rewrite zlen_drop by lia; lia|]. split; [reflexivity|]. split; [lia|].
  split; [lia|]. rewrite app_assoc. apply take_app_exact. rewrite zlen_app; reflexivity.
Qed.
