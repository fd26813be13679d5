(** Lemmas on doubles and AMF0. *)
From Verif Require Import Base L_IO M_Text M_Rtmp M_Url M_RtmpSess S_RtmpSess L_RtmpSess M_RtmpReply S_Amf.

(** ** Doubles *)
Lemma dbl_parts s e fr b : 0 <= s <= 1 -> 0 <= e < 2 ^ 11 -> 0 <= fr < 2 ^ 52 -> b = s * 2 ^ 63 + e * 2 ^ 52 + fr ->
  dbl_exp b = e /\ b mod 2 ^ 52 = fr /\ b / 2 ^ 63 = s /\ is_double b.
Proof.
  intros Hs He Hf Hb. unfold dbl_exp, is_double.
  assert (E : b / 2 ^ 52 = s * 2 ^ 11 + e).
  { symmetry. apply Z.div_unique with fr; [left; lia|]. subst b. change (2 ^ 63) with (2 ^ 52 * 2 ^ 11). lia. }
  split; [|split; [|split]].
  - rewrite E. symmetry. apply Z.mod_unique with s; [left; lia|]. lia.
  - symmetry. apply Z.mod_unique with (s * 2 ^ 11 + e); [left; lia|]. subst b. change (2 ^ 63) with (2 ^ 52 * 2 ^ 11). lia.
  - symmetry. apply Z.div_unique with (e * 2 ^ 52 + fr); [left|lia]. change (2 ^ 63) with (2 ^ 11 * 2 ^ 52). change (2 ^ 11) with 2048 in *. change (2 ^ 52) with 4503599627370496 in *. lia.
  - subst b. change (2 ^ 64) with (2 * 2 ^ 11 * 2 ^ 52). change (2 ^ 63) with (2 ^ 11 * 2 ^ 52). change (2 ^ 11) with 2048 in *. change (2 ^ 52) with 4503599627370496 in *. lia.
Qed.
Lemma int_dbl_is z : Z.abs z <= 2 ^ 31 -> dbl_is (int_dbl z) z.
Proof.
  intros H. unfold int_dbl. destruct (z =? 0) eqn:E0.
  { apply Z.eqb_eq in E0. subst z. unfold dbl_is, is_double, dbl_finite, dbl_exp, dbl_mag, dbl_negative.
    change (0 / 2 ^ 52) with 0. change (0 mod 2 ^ 11) with 0. change (0 mod 2 ^ 52) with 0. change (dbl_exp 0) with 0. change (0 =? 0) with true. cbv iota.
    change (Z.abs 0) with 0. rewrite !Z.mul_0_l. split; [lia|]. split; [lia|]. split; [reflexivity|]. split; intros; lia. }
  apply Z.eqb_neq in E0. cbv zeta. set (m := Z.abs z) in *. set (k := Z.log2 m).
  assert (Hm : 0 < m) by (unfold m; lia).
  destruct (Z.log2_spec m Hm) as [L1 L2]. fold k in L1, L2.
  assert (Hk0 : 0 <= k) by apply Z.log2_nonneg.
  assert (Hk : k <= 31).
  { destruct (Z.le_gt_cases k 31) as [|G]; [assumption|]. exfalso.
    assert (2 ^ 32 <= 2 ^ k) by (apply Z.pow_le_mono_r; lia). change (2 ^ 32) with (2 * 2 ^ 31) in *. lia. }
  set (s := if z <? 0 then 1 else 0).
  set (fr := (m - 2 ^ k) * 2 ^ (52 - k)).
  assert (P52 : 2 ^ k * 2 ^ (52 - k) = 2 ^ 52) by (rewrite <- Z.pow_add_r by lia; f_equal; lia).
  assert (Hp : 0 < 2 ^ (52 - k)) by (apply Z.pow_pos_nonneg; lia).
  rewrite Z.pow_succ_r in L2 by lia.
  assert (Hfr : 0 <= fr < 2 ^ 52) by (unfold fr; rewrite <- P52; nia).
  assert (Eb : (if z <? 0 then 2 ^ 63 else 0) + (1023 + k) * 2 ^ 52 + fr = s * 2 ^ 63 + (1023 + k) * 2 ^ 52 + fr)
    by (unfold s; destruct (z <? 0); lia).
  rewrite Eb. destruct (dbl_parts s (1023 + k) fr _ ltac:(unfold s; destruct (z <? 0); lia) ltac:(change (2 ^ 11) with 2048; lia) Hfr eq_refl) as (H1 & H2 & H3 & H4).
  unfold dbl_is. split; [exact H4|]. unfold dbl_finite, dbl_mag. rewrite H1, H2. split; [lia|].
  replace (1023 + k =? 0) with false by (symmetry; apply Z.eqb_neq; lia).
  rewrite Z.max_r by lia. split.
  - replace (2 ^ 52 + fr) with (m * 2 ^ (52 - k)) by (unfold fr; rewrite <- P52; ring).
    rewrite <- Z.mul_assoc, <- Z.pow_add_r by lia. f_equal. f_equal. lia.
  - unfold dbl_negative. unfold s. destruct (z <? 0) eqn:Ez.
    + apply Z.ltb_lt in Ez. split; [|lia]. intros _.
      assert (0 <= (1023 + k) * 2 ^ 52) by (apply Z.mul_nonneg_nonneg; lia). lia.
    + apply Z.ltb_ge in Ez. split; [lia|]. intros Hn. exfalso. change (2 ^ 63) with (2048 * 2 ^ 52) in Hn.
      assert ((1023 + k) * 2 ^ 52 <= 1054 * 2 ^ 52) by (apply Z.mul_le_mono_nonneg_r; lia). lia.
Qed.
Lemma trunc_abs_unique b z z' : Z.abs z * 2 ^ 1075 <= dbl_mag b < (Z.abs z + 1) * 2 ^ 1075 ->
  Z.abs z' * 2 ^ 1075 <= dbl_mag b < (Z.abs z' + 1) * 2 ^ 1075 -> Z.abs z = Z.abs z'.
Proof.
  intros [A1 A2] [B1 B2]. assert (P : 0 < 2 ^ 1075) by (apply Z.pow_pos_nonneg; lia). set (p := 2 ^ 1075) in *. clearbody p. nia.
Qed.
Lemma trunc_unique b z z' : dbl_trunc b z -> dbl_trunc b z' -> z = z'.
Proof.
  intros (_ & A & As) (_ & B & Bs). pose proof (trunc_abs_unique b z z' A B) as E.
  destruct (Z.eq_dec z 0) as [->|N]; [lia|]. assert (N' : z' <> 0) by lia. specialize (As N). specialize (Bs N').
  clear A B. assert (C : z < 0 <-> z' < 0) by tauto. lia.
Qed.
Lemma dbl_is_trunc b z : dbl_is b z -> dbl_trunc b z.
Proof.
  intros (_ & F & M & S). split; [exact F|]. rewrite M. assert (P : 0 < 2 ^ 1075) by (apply Z.pow_pos_nonneg; lia).
  split; [|intros _; exact S]. set (p := 2 ^ 1075) in *. clearbody p. nia.
Qed.
(** The conversion before the range check. *)
Definition dbl_cut (bits : Z) : Z :=
  let ex := dbl_exp bits in
  let m := 2 ^ 52 + bits mod 2 ^ 52 in
  let v := if ex <? 1023 then 0 else if ex <=? 1075 then m / 2 ^ (1075 - ex) else m * 2 ^ (ex - 1075) in
  if bits / 2 ^ 63 =? 1 then - v else v.
Lemma dbl_cut_trunc b : is_double b -> dbl_finite b -> dbl_trunc b (dbl_cut b).
Proof.
  intros [B0 B1] F. split; [exact F|]. unfold dbl_cut.
  set (v := if dbl_exp b <? 1023 then 0 else if dbl_exp b <=? 1075 then (2 ^ 52 + b mod 2 ^ 52) / 2 ^ (1075 - dbl_exp b) else (2 ^ 52 + b mod 2 ^ 52) * 2 ^ (dbl_exp b - 1075)).
  assert (He : 0 <= dbl_exp b < 2 ^ 11) by (unfold dbl_exp; apply Z.mod_pos_bound; lia).
  assert (Hf : 0 <= b mod 2 ^ 52 < 2 ^ 52) by (apply Z.mod_pos_bound; lia).
  assert (Hv : 0 <= v /\ v * 2 ^ 1075 <= dbl_mag b < (v + 1) * 2 ^ 1075).
  { unfold v, dbl_mag. set (e := dbl_exp b) in *. set (fr := b mod 2 ^ 52) in *.
    destruct (e <? 1023) eqn:E1.
    - apply Z.ltb_lt in E1. split; [lia|]. rewrite Z.mul_0_l, Z.add_0_l, Z.mul_1_l.
      set (M := if e =? 0 then fr else 2 ^ 52 + fr). assert (HM : 0 <= M < 2 ^ 53) by (unfold M; change (2 ^ 53) with (2 * 2 ^ 52); destruct (e =? 0); lia).
      assert (HP : 0 < 2 ^ Z.max 1 e <= 2 ^ 1022) by (split; [apply Z.pow_pos_nonneg; lia|apply Z.pow_le_mono_r; lia]).
      replace (2 ^ 1075) with (2 ^ 53 * 2 ^ 1022) by (rewrite <- Z.pow_add_r by lia; reflexivity).
      set (q := 2 ^ Z.max 1 e) in *. set (p := 2 ^ 1022) in *. clearbody p q. set (c := 2 ^ 53) in *. clearbody c. nia.
    - apply Z.ltb_ge in E1. replace (e =? 0) with false by (symmetry; apply Z.eqb_neq; lia). rewrite Z.max_r by lia.
      destruct (e <=? 1075) eqn:E2.
      + apply Z.leb_le in E2. set (d := 2 ^ (1075 - e)).
        assert (Hd : 0 < d) by (unfold d; apply Z.pow_pos_nonneg; lia).
        replace (2 ^ 1075) with (d * 2 ^ e) by (unfold d; rewrite <- Z.pow_add_r by lia; f_equal; lia).
        assert (Hq : 0 < 2 ^ e) by (apply Z.pow_pos_nonneg; lia).
        pose proof (Z.div_pos (2 ^ 52 + fr) d ltac:(lia) Hd) as H0.
        pose proof (Z.mul_div_le (2 ^ 52 + fr) d Hd) as H1. pose proof (Z.mul_succ_div_gt (2 ^ 52 + fr) d Hd) as H2.
        set (w := (2 ^ 52 + fr) / d) in *. set (M := 2 ^ 52 + fr) in *. set (q := 2 ^ e) in *. clearbody w M q d.
        split; [exact H0|]. split.
        * transitivity (d * w * q); [apply Z.eq_le_incl; ring|]. apply Z.mul_le_mono_nonneg_r; lia.
        * apply Z.lt_le_trans with (d * Z.succ w * q); [apply Z.mul_lt_mono_pos_r; lia|]. apply Z.eq_le_incl. unfold Z.succ. ring.
      + apply Z.leb_gt in E2.
        assert (Hp : 0 < 2 ^ (e - 1075)) by (apply Z.pow_pos_nonneg; lia).
        split; [apply Z.mul_nonneg_nonneg; lia|].
        replace (2 ^ e) with (2 ^ (e - 1075) * 2 ^ 1075) by (rewrite <- Z.pow_add_r by lia; f_equal; lia).
        assert (P : 0 < 2 ^ 1075) by (apply Z.pow_pos_nonneg; lia).
        rewrite Z.mul_assoc. set (w := (2 ^ 52 + fr) * 2 ^ (e - 1075)). clearbody w. set (p := 2 ^ 1075) in *. clearbody p. nia. }
  destruct Hv as [V0 V]. clearbody v.
  assert (Hs : b / 2 ^ 63 = 1 <-> 2 ^ 63 <= b).
  { split; intros H.
    - pose proof (Z.mul_div_le b (2 ^ 63) ltac:(lia)). rewrite H in *. lia.
    - symmetry. apply Z.div_unique with (b - 2 ^ 63); [left|lia]. change (2 ^ 64) with (2 * 2 ^ 63) in B1. lia. }
  unfold dbl_negative. destruct (b / 2 ^ 63 =? 1) eqn:E.
  - apply Z.eqb_eq in E. rewrite Z.abs_opp, Z.abs_eq by exact V0. split; [exact V|]. intros N. split; [intros _; apply Hs; exact E|intros _; lia].
  - apply Z.eqb_neq in E. rewrite Z.abs_eq by exact V0. split; [exact V|]. intros N. split; [lia|]. intros G. apply Hs in G. contradiction.
Qed.
Lemma dbl_int_cut b : dbl_int b = if dbl_exp b =? 2047 then None else
  if (- 2 ^ 31 <=? dbl_cut b) && (dbl_cut b <? 2 ^ 31) then Some (dbl_cut b) else None.
Proof. reflexivity. Qed.
Lemma dbl_int_spec b z : is_double b -> (dbl_int b = Some z <-> dbl_trunc b z /\ - 2 ^ 31 <= z < 2 ^ 31).
Proof.
  intros D. rewrite dbl_int_cut. destruct (dbl_exp b =? 2047) eqn:E.
  { apply Z.eqb_eq in E. split; [discriminate|]. intros [(F & _) _]. contradiction. }
  apply Z.eqb_neq in E. pose proof (dbl_cut_trunc b D E) as T. split.
  - destruct ((- 2 ^ 31 <=? dbl_cut b) && (dbl_cut b <? 2 ^ 31)) eqn:R; [|discriminate]. intros [= <-].
    apply andb_prop in R as [R1 R2]. apply Z.leb_le in R1. apply Z.ltb_lt in R2. split; [exact T|lia].
  - intros [T' R]. rewrite (trunc_unique _ _ _ T T').
    replace (- 2 ^ 31 <=? z) with true by (symmetry; apply Z.leb_le; lia). replace (z <? 2 ^ 31) with true by (symmetry; apply Z.ltb_lt; lia). reflexivity.
Qed.
Lemma ieee_of b : is_double b -> ieee (mknum b (dbl_int b)).
Proof.
  intros D. unfold ieee. cbn [nm_bits nm_int]. split; [exact D|]. split.
  - intros z H. apply dbl_int_spec; assumption.
  - intros N [z H]. apply (dbl_int_spec b z D) in H. congruence.
Qed.
Lemma dbl_is_double b z : dbl_is b z -> is_double b.
Proof. intros H. apply H. Qed.

(** ** Reading AMF0 *)
Lemma read_text_app s r : zlen s < 65536 -> read_text (be 2 (zlen s) ++ s ++ r) = Some (s, r).
Proof.
  intros H. pose proof (zlen_nonneg s). pose proof (zlen_nonneg r). unfold read_text.
  assert (E : take 2 (be 2 (zlen s) ++ s ++ r) = be 2 (zlen s)) by (apply take_app_exact; rewrite zlen_be; reflexivity).
  rewrite E, bev_be. change (256 ^ Z.of_nat 2) with 65536. rewrite Z.mod_small by lia.
  rewrite !zlen_app, zlen_be. change (Z.of_nat 2) with 2.
  replace (2 + (zlen s + zlen r) <? 2) with false by (symmetry; apply Z.ltb_ge; lia).
  replace (2 + (zlen s + zlen r) <? 2 + zlen s) with false by (symmetry; apply Z.ltb_ge; lia).
  assert (E1 : drop 2 (be 2 (zlen s) ++ s ++ r) = s ++ r) by (apply drop_app_exact; rewrite zlen_be; reflexivity).
  rewrite E1. f_equal. f_equal; [apply take_app_exact; reflexivity|].
  rewrite app_assoc. apply drop_app_exact. rewrite zlen_app, zlen_be. reflexivity.
Qed.
Lemma rv_num f b r : is_double b -> read_value (S f) (0 :: be 8 b ++ r) = Some (VNum b, r).
Proof.
  intros [H0 H1]. cbn [read_value]. change (0 =? 0) with true. cbv iota. rewrite zlen_app, zlen_be. pose proof (zlen_nonneg r).
  change (Z.of_nat 8) with 8. replace (8 + zlen r <? 8) with false by (symmetry; apply Z.ltb_ge; lia).
  rewrite (take_app_exact 8 (be 8 b) r) by (rewrite zlen_be; reflexivity). rewrite (drop_app_exact 8 (be 8 b) r) by (rewrite zlen_be; reflexivity).
  rewrite bev_be. change (256 ^ Z.of_nat 8) with (2 ^ 64). rewrite Z.mod_small by lia. reflexivity.
Qed.
Lemma rv_bool f (b : bool) r : read_value (S f) (1 :: (if b then 1 else 0) :: r) = Some (VBool b, r).
Proof. destruct b; reflexivity. Qed.
Lemma rv_null f r : read_value (S f) (5 :: r) = Some (VNull, r).
Proof. reflexivity. Qed.
Lemma rv_str f s r : zlen s < 65536 -> read_value (S f) (2 :: be 2 (zlen s) ++ s ++ r) = Some (VStr s, r).
Proof.
  intros H. cbn [read_value]. change (2 =? 0) with false. change (2 =? 1) with false. change (2 =? 2) with true. cbv iota.
  rewrite read_text_app by exact H. reflexivity.
Qed.
Lemma rv_obj f b l r : read_props f b = Some (l, r) -> read_value (S f) (3 :: b) = Some (VObj l, r).
Proof.
  intros H. cbn [read_value]. change (3 =? 0) with false. change (3 =? 1) with false. change (3 =? 2) with false. change (3 =? 3) with true. cbv iota. rewrite H. reflexivity.
Qed.
Lemma rp_nil f r : read_props (S f) (0 :: 0 :: 9 :: r) = Some ([], r).
Proof.
  cbn [read_props]. change (0 :: 0 :: 9 :: r) with (be 2 (zlen (@nil Z)) ++ [] ++ (9 :: r)). rewrite read_text_app by (change (zlen (@nil Z)) with 0; lia). reflexivity.
Qed.
Lemma rp_cons f k b v r1 l r2 : 0 < zlen k < 65536 -> read_value f b = Some (v, r1) -> read_props f r1 = Some (l, r2) ->
  read_props (S f) (be 2 (zlen k) ++ k ++ b) = Some ((k, v) :: l, r2).
Proof.
  intros H Hv Hp. cbn [read_props]. rewrite read_text_app by lia. destruct k as [|x k]; [change (zlen (@nil Z)) with 0 in H; lia|].
  rewrite Hv, Hp. reflexivity.
Qed.
Lemma rvs_cons f b v r vs : b <> [] -> read_value (S f) b = Some (v, r) -> read_values f r = Some vs -> read_values (S f) b = Some (v :: vs).
Proof. intros N Hv Hr. destruct b as [|x b]; [congruence|]. cbn [read_values]. rewrite Hv, Hr. reflexivity. Qed.

(** ** The replies *)
Lemma e_put_ok cap e l : zlen e + zlen l <= cap -> put cap e l = Ok (e ++ l).
Proof. intros H. unfold put. replace (cap <? zlen e + zlen l) with false by (symmetry; apply Z.ltb_ge; lia). reflexivity. Qed.
(** Encoded pieces. *)
Definition p_str (s : list Z) : list Z := 2 :: be 2 (zlen s) ++ s.
Definition p_name (s : list Z) : list Z := be 2 (zlen s) ++ s.
Definition p_num (b : Z) : list Z := 0 :: be 8 b.
Lemma rs_str f s r vs : zlen s < 65536 -> read_values f r = Some vs -> read_values (S f) (p_str s ++ r) = Some (VStr s :: vs).
Proof. intros H Hr. unfold p_str. cbn [app]. rewrite <- app_assoc. eapply rvs_cons; [discriminate|apply rv_str; exact H|exact Hr]. Qed.
Lemma rs_num f b r vs : is_double b -> read_values f r = Some vs -> read_values (S f) (p_num b ++ r) = Some (VNum b :: vs).
Proof. intros H Hr. unfold p_num. cbn [app]. eapply rvs_cons; [discriminate|apply rv_num; exact H|exact Hr]. Qed.
Lemma rs_null f r vs : read_values f r = Some vs -> read_values (S f) ([5] ++ r) = Some (VNull :: vs).
Proof. intros Hr. cbn [app]. eapply rvs_cons; [discriminate|apply rv_null|exact Hr]. Qed.
Lemma rs_bool f (b : bool) r vs : read_values f r = Some vs -> read_values (S f) ([1; if b then 1 else 0] ++ r) = Some (VBool b :: vs).
Proof. intros Hr. cbn [app]. eapply rvs_cons; [discriminate|apply rv_bool|exact Hr]. Qed.
Lemma rs_obj f r r1 l vs : read_props f r = Some (l, r1) -> read_values f r1 = Some vs -> read_values (S f) ([3] ++ r) = Some (VObj l :: vs).
Proof. intros Hp Hr. cbn [app]. eapply rvs_cons; [discriminate|apply rv_obj; exact Hp|exact Hr]. Qed.
Lemma rp_str f k s r l r2 : 0 < zlen k < 65536 -> zlen s < 65536 -> read_props (S f) r = Some (l, r2) ->
  read_props (S (S f)) (p_name k ++ p_str s ++ r) = Some ((k, VStr s) :: l, r2).
Proof.
  intros H Hs Hp. unfold p_name. rewrite <- app_assoc. eapply rp_cons; [exact H| |exact Hp].
  unfold p_str. cbn [app]. rewrite <- app_assoc. apply rv_str. exact Hs.
Qed.
Lemma rp_num f k b r l r2 : 0 < zlen k < 65536 -> is_double b -> read_props (S f) r = Some (l, r2) ->
  read_props (S (S f)) (p_name k ++ p_num b ++ r) = Some ((k, VNum b) :: l, r2).
Proof.
  intros H Hs Hp. unfold p_name. rewrite <- app_assoc. eapply rp_cons; [exact H| |exact Hp].
  unfold p_num. cbn [app]. apply rv_num. exact Hs.
Qed.
Lemma rp_bool f k (b : bool) r l r2 : 0 < zlen k < 65536 -> read_props (S f) r = Some (l, r2) ->
  read_props (S (S f)) (p_name k ++ [1; if b then 1 else 0] ++ r) = Some ((k, VBool b) :: l, r2).
Proof.
  intros H Hp. unfold p_name. rewrite <- app_assoc. eapply rp_cons; [exact H| |exact Hp]. cbn [app]. apply rv_bool.
Qed.
Lemma rp_end f r : read_props (S f) ([0; 0; 9] ++ r) = Some ([], r).
Proof. apply rp_nil. Qed.
Lemma sdouble z : Z.abs z <= 2 ^ 31 -> is_double (int_dbl z).
Proof. intros H. apply (dbl_is_double _ z). apply int_dbl_is. exact H. Qed.
Ltac short := solve [vm_compute; auto | split; vm_compute; auto].

(** Putting pieces one after the other. *)
Fixpoint puts_all (cap : Z) (e : list Z) (ps : list (list Z)) : res (list Z) :=
  match ps with [] => Ok e | p :: ps => let? e := put cap e p in puts_all cap e ps end.
Lemma puts_all_spec cap ps : ps <> [] -> forall e,
  puts_all cap e ps = if cap <? zlen e + zlen (concat ps) then UB else Ok (e ++ concat ps).
Proof.
  induction ps as [|p ps IH]; [congruence|]. intros _ e. cbn [puts_all concat]. unfold put. rewrite zlen_app.
  pose proof (zlen_nonneg (concat ps)).
  destruct (cap <? zlen e + zlen p) eqn:E; cbn [bind].
  { apply Z.ltb_lt in E. replace (cap <? zlen e + (zlen p + zlen (concat ps))) with true by (symmetry; apply Z.ltb_lt; lia). reflexivity. }
  destruct ps as [|q ps].
  { cbn [puts_all concat]. change (zlen (@nil Z)) with 0. rewrite Z.add_0_r, E, app_nil_r. reflexivity. }
  rewrite IH by discriminate. rewrite zlen_app, Z.add_assoc, app_assoc. reflexivity.
Qed.
Lemma zlen_p_str s : zlen (p_str s) = 3 + zlen s.
Proof. unfold p_str. rewrite zlen_cons, zlen_app, zlen_be. change (Z.of_nat 2) with 2. lia. Qed.
Section Pieces.
Context (cap : Z) (K : list Z -> res (list Z)) (ps : list (list Z)).
Lemma pa_put e p : (forall e, K e = puts_all cap e ps) -> bind (put cap e p) K = puts_all cap e (p :: ps).
Proof. intros H. cbn [puts_all]. destruct (put cap e p); cbn [bind]; [apply H|reflexivity..]. Qed.
Lemma pa_two e p q f : (forall e, f e = put cap e q) -> (forall e, K e = puts_all cap e ps) ->
  bind (bind (put cap e p) f) K = puts_all cap e (p :: q :: ps).
Proof. intros Hf H. cbn [puts_all]. destruct (put cap e p) as [x| | |]; cbn [bind]; [|reflexivity..]. rewrite Hf. destruct (put cap x q); cbn [bind]; [apply H|reflexivity..]. Qed.
Lemma pa_str e s : (forall e, K e = puts_all cap e ps) -> bind (e_str cap e s) K = puts_all cap e (p_str s :: ps).
Proof. apply pa_put. Qed.
Lemma pa_num e d : (forall e, K e = puts_all cap e ps) -> bind (e_num cap e d) K = puts_all cap e (p_num d :: ps).
Proof. apply pa_put. Qed.
Lemma pa_null e : (forall e, K e = puts_all cap e ps) -> bind (e_null cap e) K = puts_all cap e ([5] :: ps).
Proof. apply pa_put. Qed.
Lemma pa_open e : (forall e, K e = puts_all cap e ps) -> bind (e_open cap e) K = puts_all cap e ([3] :: ps).
Proof. apply pa_put. Qed.
Lemma pa_nstr e n s : (forall e, K e = puts_all cap e ps) -> bind (e_nstr cap e n s) K = puts_all cap e (p_name n :: p_str s :: ps).
Proof. apply pa_two. reflexivity. Qed.
Lemma pa_nnum e n d : (forall e, K e = puts_all cap e ps) -> bind (e_nnum cap e n d) K = puts_all cap e (p_name n :: p_num d :: ps).
Proof. apply pa_two. reflexivity. Qed.
Lemma pa_nfalse e n : (forall e, K e = puts_all cap e ps) -> bind (e_nbool cap e n false) K = puts_all cap e (p_name n :: [1; 0] :: ps).
Proof. apply pa_two. reflexivity. Qed.
End Pieces.
Lemma pa_end cap e p : put cap e p = puts_all cap e [p].
Proof. cbn [puts_all]. destruct (put cap e p); reflexivity. Qed.
Ltac pieces :=
  cbv zeta;
  repeat lazymatch goal with
  | |- bind (put _ _ _) _ = _ => apply pa_put; intros ?
  | |- bind (e_str _ _ _) _ = _ => apply pa_str; intros ?
  | |- bind (e_num _ _ _) _ = _ => apply pa_num; intros ?
  | |- bind (e_null _ _) _ = _ => apply pa_null; intros ?
  | |- bind (e_open _ _) _ = _ => apply pa_open; intros ?
  | |- bind (e_nstr _ _ _ _) _ = _ => apply pa_nstr; intros ?
  | |- bind (e_nnum _ _ _ _) _ = _ => apply pa_nnum; intros ?
  | |- bind (e_nbool _ _ _ _) _ = _ => apply pa_nfalse; intros ?
  end;
  apply pa_end.
Lemma zlen_p_num d : zlen (p_num d) = 9.
Proof. reflexivity. Qed.
(** Lengths of concrete pieces. *)
Ltac lens :=
  cbn [concat]; rewrite !zlen_app, ?zlen_p_num;
  repeat match goal with |- context [zlen (p_str (str ?s))] => let v := eval vm_compute in (zlen (p_str (str s))) in change (zlen (p_str (str s))) with v end;
  repeat match goal with |- context [zlen (p_name (str ?s))] => let v := eval vm_compute in (zlen (p_name (str s))) in change (zlen (p_name (str s))) with v end;
  repeat match goal with |- context [zlen (?x :: ?l)] => let v := eval vm_compute in (zlen (x :: l)) in change (zlen (x :: l)) with v end;
  change (zlen (@nil Z)) with 0.
Lemma puts_all_ok cap ps : ps <> [] -> zlen (concat ps) <= cap -> puts_all cap [] ps = Ok (concat ps).
Proof.
  intros N H. rewrite puts_all_spec by exact N. change (zlen (@nil Z)) with 0. replace (cap <? 0 + zlen (concat ps)) with false by (symmetry; apply Z.ltb_ge; lia). reflexivity.
Qed.
Lemma result_heard txn id : is_double txn -> is_double id -> exists b, result_body txn id = Ok b /\
  read_amf0 b = Some [VStr (str "_result"); VNum txn; VNull; VNum id].
Proof.
  intros Ht Hi. set (ps := [p_str (str "_result"); p_num txn; [5]; p_num id]).
  exists (concat ps). split.
  { transitivity (puts_all (256 - 18) [] ps); [unfold result_body, ps; pieces|]. apply puts_all_ok; [discriminate|]. unfold ps. lens. lia. }
  unfold read_amf0. assert (L : length (concat ps) = 29%nat) by reflexivity. rewrite L. unfold ps. cbn [concat].
  apply rs_str; [short|]. apply rs_num; [exact Ht|]. apply rs_null. apply rs_num; [exact Hi|]. reflexivity.
Qed.
Lemma sample_access_heard : exists b, sample_access_body = Ok b /\
  read_amf0 b = Some [VStr (str "|RtmpSampleAccess"); VBool true; VBool true].
Proof. eexists. split; [vm_compute; reflexivity|vm_compute; reflexivity]. Qed.
Lemma play_start_heard : exists b, play_start_body = Ok b /\ read_amf0 b = Some
  [VStr (str "onStatus"); VNum 0; VNull;
   VObj [(str "level", VStr (str "status")); (str "code", VStr (str "NetStream.Play.Start")); (str "description", VStr (str "Start live"))]].
Proof. eexists. split; [vm_compute; reflexivity|vm_compute; reflexivity]. Qed.
Lemma publish_start_heard z : Z.abs z <= 2 ^ 31 -> exists b, publish_start_body z = Ok b /\ read_amf0 b = Some
  [VStr (str "onStatus"); VNum (int_dbl z); VNull;
   VObj [(str "level", VStr (str "status")); (str "code", VStr (str "NetStream.Publish.Start")); (str "description", VStr (str "Start publishing"))]].
Proof.
  intros Hz. pose proof (sdouble z Hz) as Hd. unfold publish_start_body. set (d := int_dbl z) in *. clearbody d.
  set (ps := [p_str (str "onStatus"); p_num d; [5]; [3]; p_name (str "level"); p_str (str "status"); p_name (str "code");
    p_str (str "NetStream.Publish.Start"); p_name (str "description"); p_str (str "Start publishing"); [0; 0; 9]]).
  exists (concat ps). split.
  { transitivity (puts_all (512 - 18) [] ps); [unfold ps; pieces|]. apply puts_all_ok; [discriminate|]. unfold ps. lens. lia. }
  unfold read_amf0. assert (L : length (concat ps) = 105%nat) by reflexivity. rewrite L. unfold ps. cbn [concat].
  apply rs_str; [short|]. apply rs_num; [exact Hd|]. apply rs_null. eapply rs_obj.
  { apply rp_str; [short|short|]. apply rp_str; [short|short|]. apply rp_str; [short|short|]. apply rp_end. }
  reflexivity.
Qed.
Lemma connect_result_heard txn : is_double txn -> exists b, connect_result_body txn = Ok b /\ read_amf0 b = Some
  [VStr (str "_result"); VNum txn;
   VObj [(str "fmsVer", VStr (str "FMS/3,5,1,525")); (str "capabilities", VNum (int_dbl 31))];
   VObj [(str "level", VStr (str "status")); (str "code", VStr (str "NetConnection.Connect.Success"))]].
Proof.
  intros Ht. set (d := int_dbl 31). assert (Hd : is_double d) by (apply sdouble; vm_compute; discriminate).
  set (ps := [p_str (str "_result"); p_num txn; [3]; p_name (str "fmsVer"); p_str (str "FMS/3,5,1,525"); p_name (str "capabilities"); p_num d; [0]; [0]; [9];
    [3]; p_name (str "level"); p_str (str "status"); p_name (str "code"); p_str (str "NetConnection.Connect.Success"); [0]; [0]; [9]]).
  exists (concat ps). split.
  { transitivity (puts_all (512 - 18) [] ps); [unfold connect_result_body, ps, d; pieces|]. apply puts_all_ok; [discriminate|]. unfold ps. lens. lia. }
  unfold read_amf0. assert (L : length (concat ps) = 128%nat) by reflexivity. rewrite L. unfold ps. cbn [concat]. clearbody d.
  apply rs_str; [short|]. apply rs_num; [exact Ht|].
  eapply rs_obj.
  { apply rp_str; [short|short|]. apply rp_num; [short|exact Hd|]. apply rp_end. }
  eapply rs_obj.
  { apply rp_str; [short|short|]. apply rp_str; [short|short|]. apply rp_end. }
  reflexivity.
Qed.

(** Every reply is a message, and what it says. *)
Definition says (r : reply) : heard :=
  match r with
  | RWinAck v => HWindow (u32 v) | RPeerBW v => HLimit (u32 v) 2 | RChunk v => HChunkSize (u32 v)
  | RConnResult t => result_of (nm_bits t) [VObj [(str "fmsVer", VStr (str "FMS/3,5,1,525")); (str "capabilities", VNum (int_dbl 31))];
      VObj [(str "level", VStr (str "status")); (str "code", VStr (str "NetConnection.Connect.Success"))]]
  | RResult t id => result_of (nm_bits t) [VNull; VNum (int_dbl id)]
  | RPlayStart => status_of 0 (str "NetStream.Play.Start") (str "Start live")
  | RPublishStart z => status_of (int_dbl z) (str "NetStream.Publish.Start") (str "Start publishing")
  | RSampleAccess => HData [VStr (str "|RtmpSampleAccess"); VBool true; VBool true]
  | RStreamBegin sid => HStreamBegin (u32 sid)
  | RAck n => HAckd (u32 n) | RPong n => HPong (u32 n)
  end.
Definition reply_ok (r : reply) : Prop :=
  match r with
  | RConnResult t => is_double (nm_bits t)
  | RResult t id => is_double (nm_bits t) /\ Z.abs id <= 2 ^ 31
  | RPublishStart z => Z.abs z <= 2 ^ 31
  | _ => True
  end.
Lemma bev_be4 v : bev (be 4 v) = u32 v.
Proof. rewrite bev_be. reflexivity. Qed.
Lemma hear_cmd b vs : read_amf0 b = Some vs -> hear (mkrm 20 0 0 3 b) = HCommand vs.
Proof. intros H. unfold hear. cbn [rm_type rm_body]. change (20 =? 1) with false. change (20 =? 3) with false. change (20 =? 4) with false. change (20 =? 5) with false. change (20 =? 6) with false. change (20 =? 20) with true. cbn [andb]. rewrite H. reflexivity. Qed.
Lemma reply_says r : reply_ok r -> exists m, reply_msg r = Ok m /\ hear m = says r /\ rm_ts m = 0 /\ rm_sid m = 0.
Proof.
  destruct r as [v|v|v|t|t id| |z| |sid|n|n]; cbn [reply_ok reply_msg bind]; intros Hr.
  - exists (mkrm 5 0 0 2 (be 4 v)). split; [reflexivity|]. split; [|split; reflexivity]. cbn [says]. rewrite <- bev_be4. reflexivity.
  - exists (mkrm 6 0 0 2 (be 4 v ++ [2])). split; [reflexivity|]. split; [|split; reflexivity]. cbn [says]. rewrite <- bev_be4. reflexivity.
  - exists (mkrm 1 0 0 2 (be 4 v)). split; [reflexivity|]. split; [|split; reflexivity]. cbn [says]. rewrite <- bev_be4. reflexivity.
  - destruct (connect_result_heard _ Hr) as (b & Hb & Hv). rewrite Hb. cbn [bind]. eexists. split; [reflexivity|]. split; [|split; reflexivity]. apply hear_cmd. exact Hv.
  - destruct Hr as [H1 H2]. destruct (result_heard (nm_bits t) (int_dbl id) H1 (sdouble _ H2)) as (b & Hb & Hv). rewrite Hb. cbn [bind]. eexists. split; [reflexivity|]. split; [|split; reflexivity]. apply hear_cmd. exact Hv.
  - destruct play_start_heard as (b & Hb & Hv). rewrite Hb. cbn [bind]. eexists. split; [reflexivity|]. split; [|split; reflexivity]. apply hear_cmd. exact Hv.
  - destruct (publish_start_heard z Hr) as (b & Hb & Hv). rewrite Hb. cbn [bind]. eexists. split; [reflexivity|]. split; [|split; reflexivity]. apply hear_cmd. exact Hv.
  - destruct sample_access_heard as (b & Hb & Hv). rewrite Hb. cbn [bind]. eexists. split; [reflexivity|]. split; [|split; reflexivity].
    unfold hear. cbn [rm_type rm_body]. change (RT_AMF0_DATA =? 1) with false. change (RT_AMF0_DATA =? 3) with false. change (RT_AMF0_DATA =? 4) with false. change (RT_AMF0_DATA =? 5) with false. change (RT_AMF0_DATA =? 6) with false. change (RT_AMF0_DATA =? 20) with false. change (RT_AMF0_DATA =? 18) with true. cbn [andb]. rewrite Hv. reflexivity.
  - exists (mkrm 4 0 0 2 (be 2 0 ++ be 4 sid)). split; [reflexivity|]. split; [|split; reflexivity]. cbn [says]. rewrite <- bev_be4. reflexivity.
  - exists (mkrm 3 0 0 2 (be 4 n)). split; [reflexivity|]. split; [|split; reflexivity]. cbn [says]. rewrite <- bev_be4. reflexivity.
  - exists (mkrm 4 0 0 2 (be 2 7 ++ be 4 n)). split; [reflexivity|]. split; [|split; reflexivity]. cbn [says]. rewrite <- bev_be4. reflexivity.
Qed.
Lemma replies_say out : Forall reply_ok out -> exists ms, Forall2 (fun r m => reply_msg r = Ok m) out ms /\
  map hear ms = map says out /\ Forall (fun m => rm_ts m = 0 /\ rm_sid m = 0) ms.
Proof.
  induction 1 as [|r out Hr H IH]; [exists []; repeat split; constructor|].
  destruct (reply_says r Hr) as (m & H1 & H2 & H3). destruct IH as (ms & I1 & I2 & I3).
  exists (m :: ms). split; [constructor; assumption|]. split; [cbn [map]; congruence|]. constructor; assumption.
Qed.
Lemma says_about r : about_commands_h (says r) = about_commands r.
Proof. destruct r; reflexivity. Qed.
Lemma filter_says out : filter about_commands_h (map says out) = map says (filter about_commands out).
Proof.
  induction out as [|r out IH]; [reflexivity|]. cbn [map filter]. rewrite says_about. destruct (about_commands r); cbn [map]; rewrite IH; reflexivity.
Qed.

(** ** Sessions: what the server sends is readable, whatever the ending *)
Lemma quiet_ok x : filter about_commands x = [] -> Forall reply_ok x.
Proof.
  induction x as [|r x IH]; [constructor|]. cbn [filter]. destruct r; cbn [about_commands]; intros H; try discriminate; constructor; try exact I; auto.
Qed.
Lemma grew_ok s s1 : grew s s1 -> Forall reply_ok (se_out s) -> Forall reply_ok (se_out s1).
Proof. intros ((x & -> & Hx) & _) H. apply Forall_app. split; [exact H|apply quiet_ok; exact Hx]. Qed.
Lemma send_packet_ok s r c s1 : send_packet s r = (c, s1) -> reply_ok r -> Forall reply_ok (se_out s) -> Forall reply_ok (se_out s1).
Proof.
  intros H Hr Hs. unfold send_packet in H. destruct (lib_send_cases s r) as [(c0 & l & _ & E)|(E & _)]; rewrite E in H; injection H as _ <-; [exact Hs|].
  cbn [se_out]. apply Forall_app. split; [exact Hs|constructor; [exact Hr|constructor]].
Qed.
Lemma send_bw_ok s r c s1 : send_bw s r = (c, s1) -> reply_ok r -> Forall reply_ok (se_out s) -> Forall reply_ok (se_out s1).
Proof.
  intros H Hr Hs. unfold send_bw in H. destruct (lib_send_cases s r) as [(c0 & l & _ & E)|(E & _)]; rewrite E in H; injection H as _ <-; [exact Hs|].
  cbn [se_out]. apply Forall_app. split; [exact Hs|constructor; [exact Hr|constructor]].
Qed.
Lemma send_list_ok l : Forall (fun fr => (fst fr = send_packet \/ fst fr = send_bw) /\ reply_ok (snd fr)) l ->
  forall s c s1, send_list s l = (c, s1) -> Forall reply_ok (se_out s) -> Forall reply_ok (se_out s1).
Proof.
  induction l as [|[f r] l IH]; intros Hl s c s1 H Hs; cbn [send_list] in H; [injection H as _ <-; exact Hs|].
  destruct (f s r) as [c2 s2] eqn:Ef. destruct (Forall_inv Hl) as [Hf Hr]. cbn [fst snd] in Hf, Hr.
  assert (Forall reply_ok (se_out s2)) as H2 by (destruct Hf as [->| ->]; [eapply send_packet_ok|eapply send_bw_ok]; eauto).
  destruct (c2 =? 0); [|injection H as _ <-; exact H2]. eapply IH; eauto. exact (Forall_inv_tail Hl).
Qed.
(** The transaction id of a command. *)
Definition txn_of (c : cmd) : num :=
  match c with CConnect t _ _ | CCreate t | CPlay t _ | CPublish t _ | CRelease t _ | CFCPublish t _ => t end.
Lemma speaks_ieee lib ev c : ieee_lib lib -> speaks lib ev c -> ieee (txn_of c).
Proof. intros Hl (m & n & vs & _ & _ & Hv & Hs). destruct Hs; cbn [txn_of]; eapply Hl; eassumption. Qed.
Lemma ieee_abs t z : ieee t -> nm_int t = Some z -> Z.abs z <= 2 ^ 31.
Proof. intros (_ & H & _) E. destruct (H _ E). lia. Qed.
Lemma ph2_ok lib tc evs : ieee_lib lib -> forall s r s', ph2 lib s tc evs = (r, s') -> Forall reply_ok (se_out s) -> Forall reply_ok (se_out s').
Proof.
  intros Hl. induction evs as [|ev evs IH]; intros s r s' H Hs; cbn [ph2] in H; [injection H as _ <-; exact Hs|].
  destruct (hk_recv s ev) as [x s1] eqn:Er. pose proof (grew_ok _ _ (hk_recv_grew _ _ _ _ Er) Hs) as H1.
  destruct x as [c|e| |]; try (injection H as _ <-; exact H1).
  destruct (negb (c =? 0)); [injection H as _ <-; exact H1|].
  destruct (ev_decode lib ev) as [[c0|]|e| |] eqn:Ed; try (injection H as _ <-; exact H1); [|eapply IH; eauto].
  apply ev_decode_some in Ed. pose proof (speaks_ieee _ _ _ Hl Ed) as Hi.
  destruct c0 as [t ap tc0|t|t name|t name|t name|t name]; cbn [txn_of] in Hi.
  - eapply IH; eauto.
  - destruct (send_packet s1 _) as [c2 s2] eqn:E2. assert (Forall reply_ok (se_out s2)) as H2 by (eapply send_packet_ok; [exact E2|split; [apply Hi|vm_compute; discriminate]|exact H1]).
    destruct (c2 =? 0); [eapply IH; eauto|injection H as _ <-; exact H2].
  - destruct (nm_int t) as [z|] eqn:Et; [|injection H as _ <-; exact H1]. destruct (send_list s1 _) as [c2 s2] eqn:E2. injection H as _ <-.
    eapply send_list_ok; [|exact E2|exact H1]. repeat (constructor; [split; [cbn; auto|exact I]|]). constructor.
  - destruct (nm_int t) as [z|] eqn:Et; [|injection H as _ <-; exact H1]. destruct (send_list s1 _) as [c2 s2] eqn:E2. injection H as _ <-.
    eapply send_list_ok; [|exact E2|exact H1]. constructor; [split; [cbn; auto|exact (ieee_abs _ _ Hi Et)]|]. constructor; [split; [cbn; auto|exact I]|]. constructor.
  - destruct (send_packet s1 _) as [c2 s2] eqn:E2. assert (Forall reply_ok (se_out s2)) as H2 by (eapply send_packet_ok; [exact E2|split; [apply Hi|vm_compute; discriminate]|exact H1]).
    destruct (c2 =? 0); [eapply IH; eauto|injection H as _ <-; exact H2].
  - destruct (send_packet s1 _) as [c2 s2] eqn:E2. assert (Forall reply_ok (se_out s2)) as H2 by (eapply send_packet_ok; [exact E2|split; [apply Hi|vm_compute; discriminate]|exact H1]).
    destruct (c2 =? 0); [eapply IH; eauto|injection H as _ <-; exact H2].
Qed.
Lemma ph1_ok lib evs : ieee_lib lib -> forall s r s', ph1 lib s evs = (r, s') -> Forall reply_ok (se_out s) -> Forall reply_ok (se_out s').
Proof.
  intros Hl. induction evs as [|ev evs IH]; intros s r s' H Hs; cbn [ph1] in H; [injection H as _ <-; exact Hs|].
  destruct (hk_recv s ev) as [x s1] eqn:Er. pose proof (grew_ok _ _ (hk_recv_grew _ _ _ _ Er) Hs) as H1.
  destruct x as [c|e| |]; try (injection H as _ <-; exact H1).
  destruct (negb (c =? 0)); [injection H as _ <-; exact H1|].
  destruct (ev_decode lib ev) as [[c0|]|e| |] eqn:Ed; try (injection H as _ <-; exact H1); [|eapply IH; eauto].
  apply ev_decode_some in Ed. pose proof (speaks_ieee _ _ _ Hl Ed) as Hi.
  destruct c0 as [t ap tc0|t|t name|t name|t name|t name]; cbn [txn_of] in Hi; try (eapply IH; eauto; fail).
  destruct (send_list s1 _) as [c2 s2] eqn:E2.
  assert (Forall reply_ok (se_out s2)) as H2.
  { eapply send_list_ok; [|exact E2|exact H1]. repeat (constructor; [split; [cbn; auto|first [exact I|apply Hi]]|]). constructor. }
  destruct (c2 =? 0); [eapply ph2_ok; eauto|injection H as _ <-; exact H2].
Qed.
(** The answers, said. *)
Lemma answers_said cs : map says (flat_map answer cs) = flat_map (command_answer (int_dbl 0) (int_dbl 1)) cs.
Proof. induction cs as [|c cs IH]; [reflexivity|]. cbn [flat_map]. rewrite map_app, IH. f_equal. destruct c; reflexivity. Qed.

(** ** The client's own commands, as its server reads them *)
Lemma rs_p_num f z r vs : Z.abs z <= 2 ^ 31 -> read_values f r = Some vs -> read_values (S f) (p_num (int_dbl z) ++ r) = Some (VNum (int_dbl z) :: vs).
Proof. intros H. apply rs_num. apply sdouble. exact H. Qed.
Definition connect_pieces (d : Z) (app tc : list Z) : list (list Z) :=
  [p_str (str "connect"); p_num d; [3]; p_name (str "app"); p_str app; p_name (str "flashVer"); p_str (str "LNX 9,0,124,2");
   p_name (str "tcUrl"); p_str tc; p_name (str "fpad"); [1; 0]; p_name (str "capabilities"); p_num (int_dbl 15);
   p_name (str "audioCodecs"); p_num (int_dbl 4071); p_name (str "videoCodecs"); p_num (int_dbl 252);
   p_name (str "objectEncoding"); p_num (int_dbl 0); [0; 0; 9]].
Lemma connect_body_pieces n app tc : connect_body n app tc = puts_all (256 - 18) [] (connect_pieces (int_dbl (n + 1)) (cstr app) (cstr tc)).
Proof. unfold connect_body, connect_pieces. pieces. Qed.
Lemma connect_pieces_len d app tc : zlen (concat (connect_pieces d app tc)) = 167 + zlen app + zlen tc.
Proof.
  unfold connect_pieces. cbn [concat]. rewrite !zlen_app, (zlen_p_str app), (zlen_p_str tc).
  repeat match goal with |- context [zlen (p_str (str ?s))] => let v := eval vm_compute in (zlen (p_str (str s))) in change (zlen (p_str (str s))) with v end.
  repeat match goal with |- context [zlen (p_name (str ?s))] => let v := eval vm_compute in (zlen (p_name (str s))) in change (zlen (p_name (str s))) with v end.
  repeat match goal with |- context [zlen (p_num ?s)] => change (zlen (p_num s)) with 9 end.
  change (zlen [3]) with 1. change (zlen [1; 0]) with 2. change (zlen [0; 0; 9]) with 3. change (zlen (@nil Z)) with 0. lia.
Qed.
Lemma cstr_id l : ~ In 0 l -> cstr l = l.
Proof.
  induction l as [|c l IH]; intros H; [reflexivity|]. cbn [cstr]. destruct (c =? 0) eqn:E; [exfalso; apply H; left; lia|].
  rewrite IH; [reflexivity|]. intros Hi. apply H. right. exact Hi.
Qed.
(** What its connect says. *)
Definition connect_says (d : Z) (app tc : list Z) : list aval :=
  [VStr (str "connect"); VNum d;
   VObj [(str "app", VStr app); (str "flashVer", VStr (str "LNX 9,0,124,2")); (str "tcUrl", VStr tc); (str "fpad", VBool false);
         (str "capabilities", VNum (int_dbl 15)); (str "audioCodecs", VNum (int_dbl 4071)); (str "videoCodecs", VNum (int_dbl 252));
         (str "objectEncoding", VNum (int_dbl 0))]].
Lemma connect_read d app tc : is_double d -> zlen app < 65536 -> zlen tc < 65536 ->
  read_amf0 (concat (connect_pieces d app tc)) = Some (connect_says d app tc).
Proof.
  intros Hd Ha Ht. unfold read_amf0. set (b := concat _).
  assert (L : exists k, length b = (20 + k)%nat).
  { pose proof (connect_pieces_len d app tc) as H. fold b in H. exists (length b - 20)%nat.
    pose proof (zlen_nonneg app). pose proof (zlen_nonneg tc). unfold zlen in H. unfold zlen in *. lia. }
  destruct L as [k ->]. unfold b, connect_pieces, connect_says. cbn [concat Nat.add].
  apply rs_str; [short|]. apply rs_num; [exact Hd|]. eapply rs_obj.
  { apply rp_str; [short|exact Ha|]. apply rp_str; [short|short|]. apply rp_str; [short|exact Ht|]. apply (rp_bool _ _ false); [short|].
    repeat (apply rp_num; [short|apply sdouble; vm_compute; discriminate|]). apply rp_end. }
  reflexivity.
Qed.
Lemma connect_body_spec n app tc :
  connect_body n app tc = if 71 <? zlen (cstr app) + zlen (cstr tc) then UB else Ok (concat (connect_pieces (int_dbl (n + 1)) (cstr app) (cstr tc))).
Proof.
  rewrite connect_body_pieces, puts_all_spec by discriminate. rewrite connect_pieces_len. change (zlen (@nil Z)) with 0. rewrite app_nil_l.
  destruct (71 <? _) eqn:E.
  - apply Z.ltb_lt in E. match goal with |- (if ?c then _ else _) = _ => replace c with true by (symmetry; apply Z.ltb_lt; lia) end. reflexivity.
  - apply Z.ltb_ge in E. match goal with |- (if ?c then _ else _) = _ => replace c with false by (symmetry; apply Z.ltb_ge; lia) end. reflexivity.
Qed.
Lemma bytes_str_ok l : forallb (fun x => (0 <=? x) && (x <? 256)) l = true -> bytes l.
Proof. intros H. apply Forall_forall. intros x Hx. rewrite forallb_forall in H. specialize (H x Hx). unfold byte. lia. Qed.
Lemma p_str_bytes s : bytes s -> bytes (p_str s).
Proof. intros H. constructor; [unfold byte; lia|]. apply Forall_app. split; [apply be_bytes|exact H]. Qed.
Lemma p_num_bytes d : bytes (p_num d).
Proof. constructor; [unfold byte; lia|]. apply be_bytes. Qed.
Lemma connect_pieces_bytes d app tc : bytes app -> bytes tc -> bytes (concat (connect_pieces d app tc)).
Proof.
  intros Ha Ht. unfold connect_pieces. cbn [concat].
  repeat (apply Forall_app; split; [first [apply p_num_bytes|apply p_str_bytes; assumption|apply bytes_str_ok; vm_compute; reflexivity]|]). constructor.
Qed.
Lemma connect_spoken lib n app tc k : reads_amf0 lib -> 0 <= n < 2 ^ 31 - 1 -> bytes app -> bytes tc -> ~ In 0 app -> ~ In 0 tc -> zlen app + zlen tc <= 71 ->
  exists m t, connect_msg n app tc = Ok m /\ speaks lib (RvMsg m k) (CConnect t app tc) /\ dbl_is (nm_bits t) (n + 1) /\ nm_int t = Some (n + 1).
Proof.
  intros Hl Hn Hba Hbt Ha Ht Hz. pose proof (zlen_nonneg app). pose proof (zlen_nonneg tc).
  assert (Hd : dbl_is (int_dbl (n + 1)) (n + 1)) by (apply int_dbl_is; lia).
  pose proof (connect_body_spec n app tc) as Hb. rewrite !cstr_id in Hb by assumption.
  replace (71 <? zlen app + zlen tc) with false in Hb by (symmetry; apply Z.ltb_ge; lia).
  set (b := concat _) in *. assert (Hr : read_amf0 b = Some (connect_says (int_dbl (n + 1)) app tc)) by (apply connect_read; [exact (dbl_is_double _ _ Hd)|lia|lia]).
  assert (Hby : bytes b) by (apply connect_pieces_bytes; assumption).
  clearbody b. destruct (Hl _ _ Hby Hr) as (vs & Hv & Hs). unfold connect_says in Hs.
  inversion Hs as [|v1 w1 r1 q1 S1 Hs1]; subst. inversion Hs1 as [|v2 w2 r2 q2 S2 Hs2]; subst. inversion Hs2 as [|v3 w3 r3 q3 S3 Hs3]; subst. inversion Hs3; subst.
  inversion S1; subst. inversion S2 as [b0 t Hbi Hi| | | |]; subst. inversion S3 as [| | |l l' Hp|]; subst.
  unfold connect_msg. rewrite Hb. cbn [bind]. exists (mkrm RT_AMF0_CMD 0 0 CH_NET b), t. split; [reflexivity|]. split.
  - exists (mkrm RT_AMF0_CMD 0 0 CH_NET b), k, (AStr (str "connect") :: ANum t :: AObj l' :: []). split; [reflexivity|]. split; [right; right; right; reflexivity|]. split; [exact Hv|].
    inversion Hp as [|k1 x1 y1 m1 n1 X1 P1]; subst. inversion P1 as [|k2 x2 y2 m2 n2 X2 P2]; subst. inversion P2 as [|k3 x3 y3 m3 n3 X3 P3]; subst.
    inversion X1; subst. inversion X3; subst.
    apply sp_connect; [apply fp_here|]. apply fp_later; [discriminate|]. apply fp_later; [discriminate|]. apply fp_here.
  - rewrite Hbi. split; [exact Hd|]. destruct Hi as (_ & Hi & Hno). destruct (nm_int t) as [z|].
    + destruct (Hi z eq_refl) as [T _]. f_equal. eapply trunc_unique; [exact T|]. rewrite Hbi. apply dbl_is_trunc. exact Hd.
    + exfalso. apply Hno; [reflexivity|]. exists (n + 1). rewrite Hbi. split; [apply dbl_is_trunc; exact Hd|lia].
Qed.
Lemma create_spoken lib n k : reads_amf0 lib -> 0 <= n < 2 ^ 31 - 1 ->
  exists m t, create_msg n = Ok m /\ speaks lib (RvMsg m k) (CCreate t) /\ dbl_is (nm_bits t) (n + 1).
Proof.
  intros Hl Hn. assert (Hd : dbl_is (int_dbl (n + 1)) (n + 1)) by (apply int_dbl_is; lia).
  unfold create_msg. assert (exists b, create_body n = Ok b /\ bytes b /\ read_amf0 b = Some [VStr (str "createStream"); VNum (int_dbl (n + 1)); VNull]) as (b & -> & Hby & Hr).
  { unfold create_body. set (d := int_dbl (n + 1)) in *. clearbody d. set (ps := [p_str (str "createStream"); p_num d; [5]]). exists (concat ps). split.
    { transitivity (puts_all (256 - 18) [] ps); [unfold ps; pieces|]. apply puts_all_ok; [discriminate|]. unfold ps. lens. lia. }
    split; [apply Forall_app; split; [apply bytes_str_ok; vm_compute; reflexivity|]; apply Forall_app; split; [apply p_num_bytes|apply bytes_str_ok; vm_compute; reflexivity]|].
    unfold read_amf0. assert (L : length (concat ps) = 25%nat) by reflexivity. rewrite L. unfold ps. cbn [concat].
    apply rs_str; [short|]. apply rs_num; [exact (dbl_is_double _ _ Hd)|]. apply rs_null. reflexivity. }
  destruct (Hl _ _ Hby Hr) as (vs & Hv & Hs).
  inversion Hs as [|v1 w1 r1 q1 S1 Hs1]; subst. inversion Hs1 as [|v2 w2 r2 q2 S2 Hs2]; subst. inversion Hs2 as [|v3 w3 r3 q3 S3 Hs3]; subst. inversion Hs3; subst.
  inversion S1; subst. inversion S2 as [b0 t Hbt Hi| | | |]; subst. inversion S3; subst.
  cbn [bind]. exists (mkrm RT_AMF0_CMD 0 0 CH_NET b), t. split; [reflexivity|]. split; [|rewrite Hbt; exact Hd].
  exists (mkrm RT_AMF0_CMD 0 0 CH_NET b), k, (AStr (str "createStream") :: ANum t :: ANull :: []). split; [reflexivity|]. split; [right; right; right; reflexivity|]. split; [exact Hv|].
  apply sp_create. left. reflexivity.
Qed.

(** ** A library that reads AMF0 *)
Fixpoint show (v : aval) : amfv :=
  match v with
  | VNum b => ANum (mknum (u64 b) (dbl_int (u64 b)))
  | VBool _ => AOther
  | VStr s => AStr s
  | VObj l => AObj (map (fun kv => (fst kv, show (snd kv))) l)
  | VNull => ANull
  end.
Definition amf0_lib : amf_lib := fun _ b => option_map (map show) (read_amf0 b).
Lemma u64_double b : is_double (u64 b).
Proof. unfold is_double, u64. apply Z.mod_pos_bound. lia. Qed.
Lemma bytes_take8 r : bytes r -> 8 <= zlen r -> is_double (bev (take 8 r)).
Proof.
  intros H L. assert (B : bytes (take 8 r)) by (apply bytes_take; exact H). pose proof (bev_range _ B) as R.
  unfold is_double. change (2 ^ 64) with (256 ^ 8). replace 8 with (zlen (take 8 r)) at 3 by (rewrite zlen_take by lia; lia). exact R.
Qed.
Lemma bytes_tail x l : bytes (x :: l) -> bytes l.
Proof. intros H. inversion H; assumption. Qed.
Lemma read_text_bytes b s r : bytes b -> read_text b = Some (s, r) -> bytes r.
Proof.
  intros H. unfold read_text. destruct (_ <? _); [discriminate|]. destruct (_ <? _); [discriminate|]. intros [= _ <-]. apply bytes_drop. exact H.
Qed.
Lemma read_shown f : forall b, bytes b ->
  (forall v r, read_value f b = Some (v, r) -> shown v (show v) /\ bytes r) /\
  (forall l r, read_props f b = Some (l, r) -> shown_props l (map (fun kv => (fst kv, show (snd kv))) l) /\ bytes r).
Proof.
  induction f as [|f IH]; intros b Hb; [split; discriminate|]. split.
  - intros v r. destruct b as [|m b]; [discriminate|]. pose proof (bytes_tail _ _ Hb) as Hb1. cbn [read_value].
    destruct (m =? 0). { destruct (zlen b <? 8) eqn:E; [discriminate|]. intros [= <- <-]. split; [|apply bytes_drop; exact Hb1].
      apply Z.ltb_ge in E. pose proof (bytes_take8 _ Hb1 E) as D. cbn [show]. constructor; [|apply ieee_of; apply u64_double]. cbn [nm_bits]. apply Z.mod_small. exact D. }
    destruct (m =? 1). { destruct b as [|x b]; [discriminate|]. intros [= <- <-]. split; [constructor|exact (bytes_tail _ _ Hb1)]. }
    destruct (m =? 2). { destruct (read_text b) as [[s r1]|] eqn:E; [|discriminate]. intros [= <- <-]. split; [constructor|eapply read_text_bytes; eauto]. }
    destruct (m =? 3). { destruct (read_props f b) as [[l r1]|] eqn:E; [|discriminate]. intros [= <- <-]. destruct (IH b Hb1) as [_ H]. destruct (H _ _ E) as [H1 H2]. split; [constructor; exact H1|exact H2]. }
    destruct (m =? 5); [|discriminate]. intros [= <- <-]. split; [constructor|exact Hb1].
  - intros l r. cbn [read_props]. destruct (read_text b) as [[k r0]|] eqn:E; [|discriminate]. pose proof (read_text_bytes _ _ _ Hb E) as Hr0.
    destruct k as [|x k].
    + destruct r0 as [|y r0]; [discriminate|]. destruct (Z.eq_dec y 9) as [->|N].
      * intros [= <- <-]. split; [constructor|exact (bytes_tail _ _ Hr0)].
      * destruct y as [|y|y]; try discriminate. do 4 (destruct y as [y|y|]; try discriminate). exfalso. apply N. reflexivity.
    + destruct (read_value f r0) as [[v r1]|] eqn:Ev; [|discriminate]. destruct (read_props f r1) as [[l1 r2]|] eqn:Ep; [|discriminate]. intros [= <- <-].
      destruct (IH r0 Hr0) as [H _]. destruct (H _ _ Ev) as [H1 H2]. destruct (IH r1 H2) as [_ H3]. destruct (H3 _ _ Ep) as [H4 H5].
      split; [|exact H5]. cbn [map fst snd]. constructor; assumption.
Qed.
Lemma amf0_lib_reads : reads_amf0 amf0_lib.
Proof.
  intros b vs Hb H. unfold amf0_lib. rewrite H. exists (map show vs). split; [reflexivity|].
  unfold read_amf0 in H. revert H. generalize (length b) as f. revert Hb. intros Hb f. revert b vs Hb.
  induction f as [|f IH]; intros b vs Hb; destruct b as [|x b]; cbn [read_values]; try discriminate; try (intros [= <-]; constructor).
  destruct (read_value (S f) (x :: b)) as [[v r]|] eqn:E; [|discriminate]. destruct (read_values f r) as [ws|] eqn:E2; [|discriminate]. intros [= <-].
  destruct (read_shown (S f) _ Hb) as [H _]. destruct (H _ _ E) as [H1 H2]. cbn [map]. constructor; [exact H1|eapply IH; eauto].
Qed.
Lemma amf0_lib_ieee : ieee_lib amf0_lib.
Proof.
  intros a b nm t vs. unfold amf0_lib. destruct (read_amf0 b) as [ws|]; [|discriminate]. cbn [option_map]. intros [= H].
  destruct ws as [|v1 [|v2 ws]]; try discriminate. cbn [map] in H. injection H as _ H _. destruct v2; try discriminate. injection H as <-. apply ieee_of. apply u64_double.
Qed.

(** ** A play or publish whose transaction id is no int *)
Lemma ph2_bad lib tc mid : forall s last rest c t name,
  Forall (orderly lib) mid -> (forall ev c, In ev mid -> speaks lib ev c -> ~ starts_role c) ->
  orderly lib last -> speaks lib last c -> c = CPlay t name \/ c = CPublish t name -> nm_int t = None ->
  steady s -> hk_bytes (se_h s) + wire (mid ++ [last]) + 5000000 < 2 ^ 31 ->
  exists s', ph2 lib s tc (mid ++ last :: rest) = (CUB, s').
Proof.
  induction mid as [|ev mid IH]; intros s last rest c t name Hm Hns Hlo Hl Hr Ht Hs Hb.
  - cbn [app] in *. cbn [ph2]. destruct (orderly_recv lib s last Hlo Hs Hb) as (s1 & -> & Hs1 & Hb1). cbn [Z.eqb negb].
    apply ev_decode_some in Hl. rewrite Hl. destruct Hr as [-> | ->]; rewrite Ht; eauto.
  - cbn [app] in *. cbn [ph2]. change (ev :: mid ++ [last]) with ([ev] ++ (mid ++ [last])) in Hb. rewrite wire_app in Hb.
    pose proof (wire_nonneg lib (mid ++ [last]) ltac:(apply Forall_app; split; [exact (Forall_inv_tail Hm)|constructor; [exact Hlo|constructor]])) as Hw.
    destruct (orderly_recv lib s ev (Forall_inv Hm) Hs ltac:(lia)) as (s1 & -> & Hs1 & Hb1). cbn [Z.eqb negb].
    assert (forall s2, steady s2 -> hk_bytes (se_h s2) = hk_bytes (se_h s1) -> exists s', ph2 lib s2 tc (mid ++ last :: rest) = (CUB, s')) as Hrec.
    { intros s2 Hs2 Hb2. eapply IH; eauto; [exact (Forall_inv_tail Hm)|intros e0 c0 Hin; apply Hns; right; exact Hin|lia]. }
    destruct (orderly_decode lib ev (Forall_inv Hm)) as [(c0 & -> & Hc0)|(-> & _)]; [|apply Hrec; auto].
    pose proof (Hns ev c0 (or_introl eq_refl) Hc0) as Hn0.
    destruct c0 as [t0 ap tc0|t0|t0 nm|t0 nm|t0 nm|t0 nm]; [apply Hrec; auto| |exfalso; apply Hn0; exact I|exfalso; apply Hn0; exact I| |].
    + destruct (send_packet_steady s1 (RResult t0 1) Hs1) as (s2 & -> & Hs2 & Hb2). cbn [Z.eqb]. apply Hrec; assumption.
    + destruct (send_packet_steady s1 (RResult t0 0) Hs1) as (s2 & -> & Hs2 & Hb2). cbn [Z.eqb]. apply Hrec; assumption.
    + destruct (send_packet_steady s1 (RResult t0 0) Hs1) as (s2 & -> & Hs2 & Hb2). cbn [Z.eqb]. apply Hrec; assumption.
Qed.
Lemma ph1_bad lib before : forall s conn t ap tc mid last rest c t1 name,
  Forall (orderly lib) (before ++ conn :: mid ++ [last]) ->
  (forall ev c, In ev before -> speaks lib ev c -> ~ opens c) ->
  speaks lib conn (CConnect t ap tc) ->
  (forall ev c, In ev mid -> speaks lib ev c -> ~ starts_role c) ->
  speaks lib last c -> c = CPlay t1 name \/ c = CPublish t1 name -> nm_int t1 = None ->
  steady s -> hk_bytes (se_h s) + wire (before ++ conn :: mid ++ [last]) + 5000000 < 2 ^ 31 ->
  exists s', ph1 lib s (before ++ conn :: mid ++ last :: rest) = (CUB, s').
Proof.
  induction before as [|ev before IH]; intros s conn t ap tc mid last rest c t1 name Ho Hbo Hconn Hns Hl Hr Ht Hs Hb.
  - cbn [app] in *. cbn [ph1]. change (conn :: mid ++ [last]) with ([conn] ++ (mid ++ [last])) in Hb. rewrite wire_app in Hb.
    pose proof (wire_nonneg lib _ (Forall_inv_tail Ho)) as Hw.
    destruct (orderly_recv lib s conn (Forall_inv Ho) Hs ltac:(lia)) as (s1 & -> & Hs1 & Hb1). cbn [Z.eqb negb].
    apply ev_decode_some in Hconn. rewrite Hconn.
    destruct (send_list_steady _ (conn_answer_kinds (se_h s1) t) s1 Hs1) as (s2 & -> & Hs2 & Hb2). cbn [Z.eqb].
    apply Forall_inv_tail in Ho. apply Forall_app in Ho as (Hm & Hlo).
    eapply ph2_bad; eauto; [exact (Forall_inv Hlo)|lia].
  - cbn [app] in *. cbn [ph1]. change (ev :: before ++ conn :: mid ++ [last]) with ([ev] ++ (before ++ conn :: mid ++ [last])) in Hb. rewrite wire_app in Hb.
    pose proof (wire_nonneg lib _ (Forall_inv_tail Ho)) as Hw.
    destruct (orderly_recv lib s ev (Forall_inv Ho) Hs ltac:(lia)) as (s1 & -> & Hs1 & Hb1). cbn [Z.eqb negb].
    assert (exists s', ph1 lib s1 (before ++ conn :: mid ++ last :: rest) = (CUB, s')) as Hrec.
    { eapply IH; eauto; [exact (Forall_inv_tail Ho)|intros e0 c0 Hin; apply Hbo; right; exact Hin|lia]. }
    destruct (orderly_decode lib ev (Forall_inv Ho)) as [(c0 & -> & Hc0)|(-> & _)]; [|exact Hrec].
    pose proof (Hbo ev c0 (or_introl eq_refl) Hc0) as Hn0.
    destruct c0; try exact Hrec. exfalso. apply Hn0. exact I.
Qed.
(** A publish command as a client might send it, for the examples. *)
Definition ex_text (name : list Z) (d : Z) (more : list Z) : list Z := p_str name ++ p_num d ++ [5] ++ more.
Definition ex_say (sid : Z) (b : list Z) : rev := RvMsg (mkrm 20 0 sid 3 b) (zlen b + 12).
Definition ex_conn : list Z := concat (connect_pieces (int_dbl 1) (str "live") (str "rtmp://h/live")).
(** A success ends with the start of the stream. *)
Lemma ph2_last lib tc evs : forall s pl pb tc' params s',
  ph2 lib s tc evs = (CRet 0 pl pb tc' params, s') -> honest s -> In (RStreamBegin 1) (se_out s').
Proof.
  induction evs as [|ev evs IH]; intros s pl pb tc' params s' H Hh; [discriminate|].
  cbn [ph2] in H. destruct (hk_recv s ev) as [r s1] eqn:Er. pose proof (grew_honest _ _ (hk_recv_grew _ _ _ _ Er) Hh) as Hh1.
  destruct r as [c|e| |]; try discriminate.
  destruct (c =? 0) eqn:Ec; cbn [negb] in H; [|injection H as -> _ _ _ _; lia].
  destruct (ev_decode lib ev) as [[c0|]|e| |] eqn:Ed; try discriminate; [|eauto|injection H as -> _ _ _ _ _; exfalso; eapply ev_decode_err; eauto].
  destruct c0 as [t ap tc0|t|t name|t name|t name|t name]; [eauto| | | | |].
  1,4,5: destruct (send_packet s1 _) as [c2 s2] eqn:E2; destruct (c2 =? 0) eqn:E3; [|injection H as -> _ _ _ _; lia];
    apply Z.eqb_eq in E3; subst c2; destruct (send_packet_0 _ _ _ E2 Hh1) as [_ Hh2]; eauto.
  - destruct (nm_int t); [|discriminate]. destruct (send_list s1 _) as [c2 s2] eqn:E2. injection H as -> _ _ _ _ <-.
    apply send_list_0 in E2; [|repeat (constructor; [cbn; auto|]); constructor|exact Hh1]. destruct E2 as [-> _]. apply in_or_app. right. cbn. auto.
  - destruct (nm_int t); [|discriminate]. destruct (send_list s1 _) as [c2 s2] eqn:E2. injection H as -> _ _ _ _ <-.
    apply send_list_0 in E2; [|repeat (constructor; [cbn; auto|]); constructor|exact Hh1]. destruct E2 as [-> _]. apply in_or_app. right. cbn. auto.
Qed.
Lemma ph1_last lib evs : forall s pl pb tc' params s',
  ph1 lib s evs = (CRet 0 pl pb tc' params, s') -> honest s -> In (RStreamBegin 1) (se_out s').
Proof.
  induction evs as [|ev evs IH]; intros s pl pb tc' params s' H Hh; [discriminate|].
  cbn [ph1] in H. destruct (hk_recv s ev) as [r s1] eqn:Er. pose proof (grew_honest _ _ (hk_recv_grew _ _ _ _ Er) Hh) as Hh1.
  destruct r as [c|e| |]; try discriminate.
  destruct (c =? 0) eqn:Ec; cbn [negb] in H; [|injection H as -> _ _ _ _; lia].
  destruct (ev_decode lib ev) as [[c0|]|e| |] eqn:Ed; try discriminate; [|eauto|injection H as -> _ _ _ _ _; exfalso; eapply ev_decode_err; eauto].
  destruct c0 as [t ap tc0|t|t name|t name|t name|t name]; eauto.
  destruct (send_list s1 _) as [c2 s2] eqn:E2. destruct (c2 =? 0) eqn:E3; [|injection H as -> _ _ _ _; lia]. apply Z.eqb_eq in E3. subst c2.
  destruct (send_list_0 _ (conn_answer_kinds _ _) _ _ E2 Hh1) as [_ Hh2]. eapply ph2_last; eauto.
Qed.
Lemma answers_no_begin cs : ~ In (RStreamBegin 1) (flat_map answer cs).
Proof. intros H. apply in_flat_map in H as (c & _ & H). destruct c; cbn in H; try tauto; destruct H as [H|[]]; discriminate. Qed.
