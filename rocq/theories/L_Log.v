(** Lemmas about formatted output. *)
From Verif Require Import Base M_Text S_Http L_Http2 L_Http3 M_Log S_Log.

Lemma cfmt_words s f args : no_percent s ->
  cfmt_go None (s ++ f) args = let? t := cfmt_go None f args in Ok (s ++ t).
Proof.
  induction s as [|c s IH]; intros H; cbn [app cfmt_go].
  - destruct (cfmt_go None f args); reflexivity.
  - assert (c <> 37) by (intro; subst; apply H; left; reflexivity). destruct (Z.eqb_spec c 37); [lia|].
    rewrite IH by (intro X; apply H; right; exact X). destruct (cfmt_go None f args); reflexivity.
Qed.

Lemma cfmt_str f s args :
  cfmt_go None (37 :: 115 :: f) (AStr s :: args) = let? t := cfmt_go None f args in Ok (cstr s ++ t).
Proof. cbn [cfmt_go]. change (37 =? 37) with true. cbv iota. change (dir_step dir0 115) with (DDone (fun a => match a with AStr s => Ok (string_of dir0 s) | _ => UB end)).
  cbv iota beta. cbn [bind]. unfold string_of, pad, dir0. cbn [d_left d_prec d_width]. change (-1 <? 0) with true. cbv iota.
  unfold blanks. pose proof (Zle_0_nat (length (cstr s))). replace (Z.to_nat (0 - zlen (cstr s))) with O by (unfold zlen; lia). reflexivity. Qed.

Lemma number_decs d n : d_zero d = false -> d_left d = false -> d_prec d = -1 -> d_width d = 0 ->
  number d (n <? 0) (print_base 10 (Z.abs n)) = decs n.
Proof.
  intros H1 H2 H3 H4. unfold number. rewrite H1, H3. change (-1 =? 0) with false. cbn [andb negb].
  assert (Z1 : forall l : list Z, zeros (-1 - zlen l) = []). { intros l. unfold zeros. pose proof (Zle_0_nat (length l)). replace (Z.to_nat _) with O by (unfold zlen; lia). reflexivity. }
  rewrite Z1. cbn [app]. unfold pad. rewrite H2, H4.
  assert (B1 : forall l : list Z, blanks (0 - zlen l) = []). { intros l. unfold blanks. pose proof (Zle_0_nat (length l)). replace (Z.to_nat _) with O by (unfold zlen; lia). reflexivity. }
  rewrite B1. cbn [app]. unfold decs. destruct (n <? 0) eqn:En.
  - rewrite Z.abs_neq by lia. reflexivity.
  - rewrite Z.abs_eq by lia. reflexivity.
Qed.
Lemma signed_decs n : is_int n -> signed dir0 n = decs n.
Proof.
  intros H. unfold signed. cbn [d_long dir0]. change (1 <=? 0) with false. cbv iota.
  assert (E : s32 n = n). { unfold s32, is_int in *. rewrite Z.mod_small; lia. }
  rewrite E. apply number_decs; reflexivity.
Qed.
Definition dir_ll : dir := mkdir 3 false false 0 (-1) 2.
Lemma signed_long n : - 2 ^ 63 <= n < 2 ^ 63 -> signed dir_ll n = decs n.
Proof.
  intros H. unfold signed. cbn [d_long dir_ll]. change (1 <=? 2) with true. cbv iota.
  assert (E : s64 n = n). { unfold s64. rewrite Z.mod_small; lia. }
  rewrite E. apply number_decs; reflexivity.
Qed.
Lemma unsigned_decs n : 0 <= n < 2 ^ 32 -> unsigned dir0 10 n = decs n.
Proof.
  intros H. unfold unsigned. cbn [d_long dir0]. change (1 <=? 0) with false. cbv iota.
  assert (E : u32 n = n). { unfold u32. rewrite Z.mod_small; lia. }
  rewrite E. rewrite <- (number_decs dir0 n eq_refl eq_refl eq_refl eq_refl).
  replace (n <? 0) with false by lia. rewrite Z.abs_eq by lia. reflexivity.
Qed.
Lemma cfmt_long f n args : - 2 ^ 63 <= n < 2 ^ 63 ->
  cfmt_go None (37 :: 108 :: 108 :: 100 :: f) (AInt n :: args) = let? t := cfmt_go None f args in Ok (decs n ++ t).
Proof. intros H. cbn [cfmt_go]. change (37 =? 37) with true. cbv iota.
  change (dir_step dir0 108) with (DMore (mkdir 3 false false 0 (-1) 1)). cbv iota.
  change (dir_step (mkdir 3 false false 0 (-1) 1) 108) with (DMore dir_ll). cbv iota.
  change (dir_step dir_ll 100) with (DDone (fun a => match a with AInt v => Ok (signed dir_ll v) | _ => UB end)).
  cbv iota beta. cbn [bind]. rewrite signed_long by exact H. reflexivity. Qed.
Lemma cfmt_uns f n args : 0 <= n < 2 ^ 32 ->
  cfmt_go None (37 :: 117 :: f) (AInt n :: args) = let? t := cfmt_go None f args in Ok (decs n ++ t).
Proof. intros H. cbn [cfmt_go]. change (37 =? 37) with true. cbv iota.
  change (dir_step dir0 117) with (DDone (fun a => match a with AInt v => Ok (unsigned dir0 10 v) | _ => UB end)).
  cbv iota beta. cbn [bind]. rewrite unsigned_decs by exact H. reflexivity. Qed.

Lemma cfmt_num f n args : is_int n ->
  cfmt_go None (37 :: 100 :: f) (AInt n :: args) = let? t := cfmt_go None f args in Ok (decs n ++ t).
Proof. intros H. cbn [cfmt_go]. change (37 =? 37) with true. cbv iota.
  change (dir_step dir0 100) with (DDone (fun a => match a with AInt v => Ok (signed dir0 v) | _ => UB end)).
  cbv iota beta. cbn [bind]. rewrite signed_decs by exact H. reflexivity. Qed.

Lemma signed_wide w n : 1 <= w -> is_int n -> signed (mkdir 1 false false w (-1) 0) n = repeat 32 (Z.to_nat w - length (decs n)) ++ decs n.
Proof.
  intros Hw H. unfold signed. cbn [d_long]. change (1 <=? 0) with false. cbv iota.
  assert (E : s32 n = n). { unfold s32, is_int in *. rewrite Z.mod_small; lia. }
  rewrite E. unfold number. cbn [d_prec d_zero d_left]. change (-1 =? 0) with false. cbn [andb negb].
  assert (Z1 : forall l : list Z, zeros (-1 - zlen l) = []). { intros l. unfold zeros. pose proof (Zle_0_nat (length l)). replace (Z.to_nat _) with O by (unfold zlen; lia). reflexivity. }
  rewrite Z1. cbn [app]. unfold pad. cbn [d_left d_width].
  assert (D : (if n <? 0 then [45] else []) ++ print_base 10 (Z.abs n) = decs n).
  { unfold decs. destruct (n <? 0) eqn:En; [rewrite Z.abs_neq by lia|rewrite Z.abs_eq by lia]; reflexivity. }
  rewrite D. unfold blanks, zlen. f_equal. f_equal. lia.
Qed.
Lemma cfmt_wide f w n args : 1 <= w < 100 -> is_int n ->
  cfmt_go None (fmt_of1 (PWide w n) ++ f) (AInt n :: args) = let? t := cfmt_go None f args in Ok (text_of1 (PWide w n) ++ t).
Proof.
  intros Hw Hn. cbn [fmt_of1 text_of1]. rewrite <- signed_wide by (lia || exact Hn).
  assert (Hd : forall c d, 0 <= c < 10 -> d_stage d = 1 -> dir_step d (48 + c) = DMore (mkdir 1 (d_zero d) (d_left d) (d_width d * 10 + c) (-1) 0)).
  { intros c d Hc Hd. unfold dir_step. rewrite Hd. change (1 <=? 0) with false. cbn [andb].
    replace ((48 <=? 48 + c) && (48 + c <=? 57)) with true by lia. change (1 <=? 1) with true. cbv iota.
    replace (48 + c - 48) with c by lia. reflexivity. }
  assert (H0 : forall c, 1 <= c < 10 -> dir_step dir0 (48 + c) = DMore (mkdir 1 false false c (-1) 0)).
  { intros c Hc. assert (C : c = 1 \/ c = 2 \/ c = 3 \/ c = 4 \/ c = 5 \/ c = 6 \/ c = 7 \/ c = 8 \/ c = 9) by lia.
    destruct C as [->|[->|[->|[->|[->|[->|[->|[->| ->]]]]]]]]; reflexivity. }
  assert (F : forall u, dir_step (mkdir 1 false false u (-1) 0) 100 = DDone (fun a => match a with AInt v => Ok (signed (mkdir 1 false false u (-1) 0) v) | _ => UB end)).
  { intros u. reflexivity. }
  destruct (Z.ltb_spec w 10); cbn [app cfmt_go]; change (37 =? 37) with true; cbv iota.
  - rewrite H0 by lia. cbv iota. rewrite F. reflexivity.
  - pose proof (Z.div_mod w 10 ltac:(lia)). pose proof (Z.mod_pos_bound w 10 ltac:(lia)).
    assert (1 <= w / 10 < 10) by (split; [apply Z.div_le_lower_bound; lia|apply Z.div_lt_upper_bound; lia]).
    rewrite H0 by lia. cbv iota. rewrite Hd by (lia || reflexivity). cbv iota. cbn [d_zero d_left d_width].
    replace (w / 10 * 10 + w mod 10) with w by lia. rewrite F. reflexivity.
Qed.

Lemma cstr_id s : no_nul s -> cstr s = s.
Proof. induction s as [|c s IH]; intros H; [reflexivity|]. cbn [cstr]. destruct (Z.eqb_spec c 0); [subst; exfalso; apply H; left; reflexivity|].
  rewrite IH; [reflexivity|intro X; apply H; right; exact X]. Qed.

Lemma cfmt_pieces ps : Forall piece_ok ps ->
  cfmt (flat_map fmt_of1 ps) (flat_map args_of1 ps) = Ok (text_of ps).
Proof.
  unfold cfmt. induction ps as [|p ps IH]; intros H; [reflexivity|]. inversion H as [|? ? Hp Hps]; subst. specialize (IH Hps).
  destruct p as [s|s|n|n|n|w n]; [..|cbn [flat_map args_of1 app text_of]; rewrite cfmt_wide by apply Hp; fold (text_of ps); rewrite IH; reflexivity];
    cbn [flat_map fmt_of1 args_of1 app text_of text_of1]; cbn [piece_ok] in Hp.
  - rewrite cfmt_words by (apply Hp). rewrite IH. reflexivity.
  - rewrite cfmt_str, IH. cbn [bind]. rewrite cstr_id by exact Hp. reflexivity.
  - rewrite cfmt_num by exact Hp. rewrite IH. reflexivity.
  - rewrite cfmt_long by exact Hp. rewrite IH. reflexivity.
  - rewrite cfmt_uns by exact Hp. rewrite IH. reflexivity.
Qed.

Lemma dec_chars n : Forall (fun c => c = 45 \/ 48 <= c <= 57) (decs n).
Proof.
  destruct (Z.ltb_spec n 0).
  - unfold decs. destruct (n <? 0) eqn:E; [|lia]. constructor; [left; reflexivity|].
    assert (D : decs (- n) = print_base 10 (- n)) by (unfold decs; destruct (- n <? 0) eqn:E2; [lia|reflexivity]).
    rewrite <- D. eapply Forall_impl; [|exact (dec_number_chars _ _ (decs_ok (- n) ltac:(lia)))]. cbn. lia.
  - eapply Forall_impl; [|exact (dec_number_chars _ _ (decs_ok n ltac:(lia)))]. cbn. lia.
Qed.

Lemma text_no_nul ps : Forall piece_ok ps -> no_nul (text_of ps).
Proof.
  intros H I. unfold text_of in I. apply in_flat_map in I. destruct I as (p & Hp & I). rewrite Forall_forall in H. specialize (H p Hp).
  destruct p; cbn in *; [apply H; exact I|apply H; exact I| | | |apply in_app_or in I as [I|I]; [apply repeat_spec in I; discriminate|]];
  pose proof (dec_chars n) as F; rewrite Forall_forall in F; specialize (F _ I); lia.
Qed.

(** A format without arguments. *)
Lemma dir_step_dir0_percent : dir_step dir0 37 = DPercent. Proof. reflexivity. Qed.

(** A directive other than a percent sign never ends well without arguments. *)
Lemma dir_never d f : d_stage d <> -1 -> cfmt_go (Some d) f [] = UB.
Proof.
  revert d. induction f as [|c f IH]; intros d H; [reflexivity|]. cbn [cfmt_go].
  destruct (dir_step d c) as [d1| |conv| |] eqn:E; try reflexivity.
  - apply IH. unfold dir_step in E.
    repeat match type of E with (if ?b then _ else _) = _ => destruct b eqn:? end; try discriminate; injection E as <-; cbn; lia.
  - exfalso. unfold dir_step in E.
    repeat match type of E with (if ?b then _ else _) = _ => destruct b eqn:? end; try discriminate. lia.
Qed.

Lemma dir_first c f : c <> 37 -> cfmt_go (Some dir0) (c :: f) [] = UB.
Proof.
  intros H. cbn [cfmt_go]. destruct (dir_step dir0 c) as [d1| |conv| |] eqn:E; try reflexivity.
  - apply dir_never. unfold dir_step in E.
    repeat match type of E with (if ?b then _ else _) = _ => destruct b eqn:? end; try discriminate; injection E as <-; cbn; lia.
  - exfalso. unfold dir_step in E.
    repeat match type of E with (if ?b then _ else _) = _ => destruct b eqn:? end; try discriminate. lia.
Qed.

Lemma plain_ok s u : doubled s u -> cfmt s [] = Ok u.
Proof.
  unfold cfmt. induction 1 as [|c s u Hc H IH|s u H IH]; [reflexivity| |].
  - cbn [cfmt_go]. destruct (Z.eqb_spec c 37); [lia|]. rewrite IH. reflexivity.
  - cbn [cfmt_go]. change (37 =? 37) with true. cbv iota. rewrite dir_step_dir0_percent. rewrite IH. reflexivity.
Qed.

Lemma plain_total s : (exists u, doubled s u) \/ cfmt s [] = UB.
Proof.
  unfold cfmt. remember (length s) as n eqn:Hn. revert s Hn. induction n as [n IH] using lt_wf_ind. intros s Hn.
  destruct s as [|c s]; [left; exists []; constructor|]. cbn [length] in Hn.
  destruct (Z.eq_dec c 37) as [->|Hc].
  - cbn [cfmt_go]. change (37 =? 37) with true. cbv iota. destruct s as [|c s]; [right; reflexivity|].
    destruct (Z.eq_dec c 37) as [->|Hc].
    + cbn [length] in Hn. destruct (IH (length s) ltac:(lia) s eq_refl) as [[u D]|E].
      * left. eexists. apply D_pair. exact D.
      * right. cbn [cfmt_go]. rewrite dir_step_dir0_percent. rewrite E. reflexivity.
    + right. apply dir_first. exact Hc.
  - destruct (IH (length s) ltac:(lia) s eq_refl) as [[u D]|E].
    + left. eexists. apply D_char; [exact Hc|exact D].
    + right. cbn [cfmt_go]. destruct (Z.eqb_spec c 37); [lia|]. rewrite E. reflexivity.
Qed.

Lemma plain_iff s u : cfmt s [] = Ok u <-> doubled s u.
Proof.
  split; [|apply plain_ok]. intros E. destruct (plain_total s) as [[u' D]|E'].
  - rewrite (plain_ok _ _ D) in E. injection E as <-. exact D.
  - rewrite E' in E. discriminate.
Qed.

Lemma doubled_plain s : no_percent s -> doubled s s.
Proof. induction s as [|c s IH]; intros H; constructor; [intro; subst; apply H; left; reflexivity|apply IH; intro X; apply H; right; exact X]. Qed.

Lemma single_percent a c b : no_percent a -> c <> 37 -> forall u, ~ doubled (a ++ 37 :: c :: b) u.
Proof.
  induction a as [|x a IH]; intros Ha Hc u D; cbn [app] in D.
  - inversion D; subst; [lia|]. lia.
  - inversion D as [|? ? ? Hx D'|? ? D']; subst.
    + apply (IH ltac:(intro X; apply Ha; right; exact X) Hc _ D').
    + apply Ha. left. reflexivity.
Qed.
Lemma last_percent a : no_percent a -> forall u, ~ doubled (a ++ [37]) u.
Proof.
  induction a as [|x a IH]; intros Ha u D; cbn [app] in D.
  - inversion D; subst; lia.
  - inversion D as [|? ? ? Hx D'|? ? D']; subst.
    + apply (IH ltac:(intro X; apply Ha; right; exact X) _ D').
    + apply Ha. left. reflexivity.
Qed.

(** ** The time *)
Definition d2 : dir := mkdir 1 true false 2 (-1) 0.
Definition d3 : dir := mkdir 1 true false 3 (-1) 0.
Definition d4 : dir := mkdir 1 true false 4 (-1) 0.
Fixpoint upto (n : nat) : list Z := match n with O => [] | S k => Z.of_nat k :: upto k end.
Lemma upto_in n z : 0 <= z < Z.of_nat n -> In z (upto n).
Proof. induction n as [|n IH]; intros H; [lia|]. cbn [upto]. destruct (Z.eq_dec z (Z.of_nat n)) as [->|]; [left; reflexivity|right; apply IH; lia]. Qed.
Lemma table f g n : forallb (fun z => eqb_list (f z) (g z)) (upto n) = true -> forall z, 0 <= z < Z.of_nat n -> f z = g z.
Proof. intros H z Hz. rewrite forallb_forall in H. apply eqb_list_spec. apply H. apply upto_in. exact Hz. Qed.
Lemma two_ok n : 0 <= n < 100 -> signed d2 n = two n.
Proof. intros H. apply (table (signed d2) two 100); [vm_compute; reflexivity|lia]. Qed.
Lemma three_ok n : 0 <= n < 1000 -> signed d3 n = three n.
Proof. intros H. apply (table (signed d3) three 1000); [vm_compute; reflexivity|lia]. Qed.
Lemma four_ok n : 0 <= n < 10000 -> signed d4 n = four n.
Proof. intros H. apply (table (signed d4) four (Z.to_nat 10000)); [vm_compute; reflexivity|lia]. Qed.


Lemma cfmt_dir0n c n f args : (c = 50 /\ n = 2 \/ c = 51 /\ n = 3 \/ c = 52 /\ n = 4) -> forall v,
  cfmt_go None (37 :: 48 :: c :: 100 :: f) (AInt v :: args) =
  let? t := cfmt_go None f args in Ok (signed (mkdir 1 true false n (-1) 0) v ++ t).
Proof. intros [[-> ->]|[[-> ->]|[-> ->]]] v; reflexivity. Qed.

Lemma stamp_fmt t : stamp_ok t ->
  cfmt (str "[%04d-%02d-%02d %02d:%02d:%02d.%03d] ")
    [AInt (t_year t); AInt (t_mon t); AInt (t_day t); AInt (t_hour t); AInt (t_min t); AInt (t_sec t); AInt (t_ms t)]
  = Ok (stamp_str t).
Proof.
  intros (H1 & H2 & H3 & H4 & H5 & H6 & H7). unfold cfmt.
  change (str "[%04d-%02d-%02d %02d:%02d:%02d.%03d] ") with
    ([91] ++ 37 :: 48 :: 52 :: 100 :: ([45] ++ 37 :: 48 :: 50 :: 100 :: ([45] ++ 37 :: 48 :: 50 :: 100 :: ([32] ++
      37 :: 48 :: 50 :: 100 :: ([58] ++ 37 :: 48 :: 50 :: 100 :: ([58] ++ 37 :: 48 :: 50 :: 100 :: ([46] ++
      37 :: 48 :: 51 :: 100 :: ([93; 32] ++ [])))))))).
  assert (W : forall s, forallb (fun c => negb (c =? 37)) s = true -> no_percent s).
  { intros s F I. rewrite forallb_forall in F. specialize (F _ I). discriminate. }
  rewrite (cfmt_words [91]) by (apply W; reflexivity).
  rewrite (cfmt_dir0n 52 4) by lia. rewrite (cfmt_words [45]) by (apply W; reflexivity).
  rewrite (cfmt_dir0n 50 2) by lia. rewrite (cfmt_words [45]) by (apply W; reflexivity).
  rewrite (cfmt_dir0n 50 2) by lia. rewrite (cfmt_words [32]) by (apply W; reflexivity).
  rewrite (cfmt_dir0n 50 2) by lia. rewrite (cfmt_words [58]) by (apply W; reflexivity).
  rewrite (cfmt_dir0n 50 2) by lia. rewrite (cfmt_words [58]) by (apply W; reflexivity).
  rewrite (cfmt_dir0n 50 2) by lia. rewrite (cfmt_words [46]) by (apply W; reflexivity).
  rewrite (cfmt_dir0n 51 3) by lia. rewrite (cfmt_words [93; 32]) by (apply W; reflexivity).
  cbn [cfmt_go bind]. fold d2 d3 d4.
  rewrite (four_ok _ H1), (two_ok _ H2), (two_ok _ H3), (two_ok _ H4), (two_ok _ H5), (two_ok _ H6), (three_ok _ H7).
  unfold stamp_str, stamp_text. rewrite app_nil_r. reflexivity.
Qed.

Lemma digit_ok n : 0 <= n < 10 -> 48 <= 48 + n <= 57. Proof. lia. Qed.
Lemma two_chars n : 0 <= n < 100 -> Forall (fun c => 48 <= c <= 57) (two n).
Proof. intros H. unfold two. pose proof (Z.mod_pos_bound n 10 ltac:(lia)). assert (0 <= n / 10 < 10) by (split; [apply Z.div_pos|apply Z.div_lt_upper_bound]; lia).
  repeat (apply Forall_cons; [lia|]). apply Forall_nil. Qed.
Lemma stamp_chars t : stamp_ok t -> Forall (fun c => c <> 0 /\ c <> 37) (stamp_str t).
Proof.
  intros (H1 & H2 & H3 & H4 & H5 & H6 & H7). unfold stamp_str, stamp_text.
  assert (A : forall n, 0 <= n < 100 -> Forall (fun c => c <> 0 /\ c <> 37) (two n)).
  { intros n Hn. eapply Forall_impl; [|exact (two_chars n Hn)]. cbn. lia. }
  assert (L : forall s, forallb (fun c => negb (c =? 37) && negb (c =? 0)) s = true -> Forall (fun c => c <> 0 /\ c <> 37) s).
  { intros s F. apply Forall_forall. intros c I. rewrite forallb_forall in F. specialize (F _ I). lia. }
  repeat (apply Forall_app; split); try (apply L; reflexivity); try (apply A; lia).
  unfold three. apply Forall_cons.
  - assert (0 <= t_ms t / 100 < 10) by (split; [apply Z.div_pos|apply Z.div_lt_upper_bound]; lia). lia.
  - apply A. apply Z.mod_pos_bound. lia.
Qed.
Lemma stamp_len t : zlen (stamp_str t) = 26. Proof. reflexivity. Qed.

Lemma cstr_all s : Forall (fun c => c <> 0) s -> cstr s = s.
Proof. intros H. apply cstr_id. intros I. rewrite Forall_forall in H. exact (H _ I eq_refl). Qed.

Lemma take_in {A} n (l : list A) x : In x (take n l) -> In x l.
Proof. unfold take. revert l. induction (Z.to_nat n) as [|k IH]; intros l H; [destruct H|]. destruct l; [destruct H|]. destruct H as [->|H]; [left; reflexivity|right; apply IH; exact H]. Qed.

Lemma take_app_ge {A} n (a b : list A) : zlen a <= n -> take n (a ++ b) = a ++ take (n - zlen a) b.
Proof. intros H. unfold take, zlen in *. rewrite firstn_app. rewrite firstn_all2 by lia. f_equal. f_equal. lia. Qed.
Lemma take_all {A} n (l : list A) : zlen l <= n -> take n l = l.
Proof. intros H. unfold take, zlen in *. apply firstn_all2. lia. Qed.

(** What a statement hands to [::printf]. *)
Lemma log_core t ps : stamp_ok t -> Forall piece_ok ps ->
  log_printf (Some t) (flat_map fmt_of1 ps) (flat_map args_of1 ps) = cfmt (take (LOG_BUF - 1) (stamp_str t ++ text_of ps)) [].
Proof.
  intros Ht Hp. unfold log_printf, snfmt. rewrite (stamp_fmt t Ht). cbn [bind]. rewrite (cfmt_pieces ps Hp). cbn [bind fst].
  f_equal. rewrite (take_all (LOG_BUF - 1) (stamp_str t)) by (rewrite stamp_len; unfold LOG_BUF; lia).
  rewrite (take_all (zlen (stamp_str t)) (stamp_str t)) by lia.
  rewrite take_app_ge by (rewrite stamp_len; unfold LOG_BUF; lia).
  replace (LOG_BUF - zlen (stamp_str t) - 1) with (LOG_BUF - 1 - zlen (stamp_str t)) by lia.
  apply cstr_all. apply Forall_app. split.
  - eapply Forall_impl; [|exact (stamp_chars t Ht)]. cbn. tauto.
  - apply Forall_forall. intros c I. apply take_in in I. intros ->. exact (text_no_nul ps Hp I).
Qed.

Definition where_ps (w : where_) : list piece :=
  [PWords (str "["); PStr (w_file w); PWords (str ":"); PNum (w_line w); PWords (str "] ["); PNum (w_ctx w); PWords (str "] ")].
Lemma words_ok s : forallb (fun c => negb (c =? 37) && negb (c =? 0)) s = true -> piece_ok (PWords s).
Proof. intros F. split; intros I; rewrite forallb_forall in F; specialize (F _ I); discriminate. Qed.
Lemma where_ps_ok w : where_ok w -> Forall piece_ok (where_ps w).
Proof.
  intros (H1 & H2 & H3 & H4). unfold where_ps.
  repeat (apply Forall_cons; [first [apply words_ok; reflexivity|assumption]|]). apply Forall_nil.
Qed.
Lemma where_ps_text w : text_of (where_ps w) = where_text w.
Proof. unfold text_of, where_ps, where_text. cbn [flat_map text_of1]. rewrite app_nil_r. reflexivity. Qed.

Lemma text_app a b : text_of (a ++ b) = text_of a ++ text_of b.
Proof. apply flat_map_app. Qed.

Lemma info_core t w ps msg args : stamp_ok t -> where_ok w -> Forall piece_ok ps ->
  flat_map fmt_of1 ps = msg ++ [13; 10] -> flat_map args_of1 ps = args ->
  sp_info (Some t) w msg args = cfmt (take (LOG_BUF - 1) (stamp_str t ++ where_text w ++ text_of ps)) [].
Proof.
  intros Ht Hw Hp Hf Ha. unfold sp_info. rewrite <- Hf, <- Ha.
  change (str "[%s:%d] [%d] ") with (flat_map fmt_of1 (where_ps w)).
  change [AStr (w_file w); AInt (w_line w); AInt (w_ctx w)] with (flat_map args_of1 (where_ps w)).
  rewrite <- !flat_map_app. rewrite log_core; [|exact Ht|apply Forall_app; split; [apply where_ps_ok; exact Hw|exact Hp]].
  rewrite text_app, where_ps_text. reflexivity.
Qed.
Lemma error_core t w ps eno etext msg args : stamp_ok t -> where_ok w -> Forall piece_ok ps ->
  flat_map fmt_of1 ps = msg ++ str " (%d %s)" ++ [13; 10] -> flat_map args_of1 ps = args ++ [AInt eno; AStr etext] ->
  sp_error (Some t) w eno etext msg args = cfmt (take (LOG_BUF - 1) (stamp_str t ++ where_text w ++ text_of ps)) [].
Proof.
  intros Ht Hw Hp Hf Ha. unfold sp_error. rewrite <- Hf, <- Ha.
  change (str "[%s:%d] [%d] ") with (flat_map fmt_of1 (where_ps w)).
  change [AStr (w_file w); AInt (w_line w); AInt (w_ctx w)] with (flat_map args_of1 (where_ps w)).
  rewrite <- !flat_map_app. rewrite log_core; [|exact Ht|apply Forall_app; split; [apply where_ps_ok; exact Hw|exact Hp]].
  rewrite text_app, where_ps_text. reflexivity.
Qed.

Ltac pieces := repeat (apply Forall_cons; [first [apply words_ok; reflexivity|cbn [piece_ok]; assumption|cbn [piece_ok]; unfold is_int in *; lia]|]); apply Forall_nil.
Ltac flat := unfold text_of; cbn [flat_map text_of1]; rewrite ?app_nil_r, <- ?app_assoc; reflexivity.

Ltac tail w := match goal with |- cfmt (take 4095 (?a ++ ?b ++ ?x)) [] = cfmt (take 4095 (?a ++ ?b ++ ?y)) [] => replace y with x; [reflexivity|] end.

Lemma http_core t w ip port method host url params ch cl :
  stamp_ok t -> where_ok w -> no_nul ip -> is_int port -> no_nul method -> no_nul host -> no_nul url -> no_nul params -> is_int cl ->
  log_http (Some t) w ip port method host url params ch cl =
  cfmt (take 4095 (stamp_str t ++ where_text w ++ http_before ip port method host ++ url ++ http_after params ch cl)) [].
Proof.
  intros. unfold log_http, sp_trace.
  rewrite (info_core t w [PWords (str "Request "); PStr ip; PWords (str ":"); PNum port; PWords (str " "); PStr method; PWords (str " ");
    PStr host; PWords (str " "); PStr url; PWords (str " "); PStr params; PWords (str ", chunked "); PNum (if ch then 1 else 0);
    PWords (str ", content-length "); PNum cl; PWords [13; 10]]); [|assumption|assumption|destruct ch; pieces|reflexivity|reflexivity].
  change (LOG_BUF - 1) with 4095. tail w. unfold http_before, http_after, crlf2. flat.
Qed.
Lemma no_host_core t w eno etext host :
  stamp_ok t -> where_ok w -> is_int eno -> no_nul etext -> no_nul host ->
  log_no_host (Some t) w eno etext host =
  cfmt (take 4095 (stamp_str t ++ where_text w ++ str "Not found host:" ++ host ++ no_host_after eno etext)) [].
Proof.
  intros. unfold log_no_host.
  rewrite (error_core t w [PWords (str "Not found host:"); PStr host; PWords (str " ("); PNum eno; PWords (str " "); PStr etext; PWords (str ")"); PWords [13; 10]]); [|assumption|assumption|pieces|reflexivity|reflexivity].
  change (LOG_BUF - 1) with 4095. tail w. unfold no_host_after, crlf2. flat.
Qed.
Lemma rtmp_core t w ip port tc :
  stamp_ok t -> where_ok w -> no_nul ip -> is_int port -> no_nul tc ->
  log_rtmp (Some t) w ip port tc = cfmt (take 4095 (stamp_str t ++ where_text w ++ rtmp_before ip port ++ tc ++ crlf2)) [].
Proof.
  intros. unfold log_rtmp, sp_trace.
  rewrite (info_core t w [PWords (str "Request client "); PStr ip; PWords (str ":"); PNum port; PWords (str ", "); PStr tc; PWords [13; 10]]); [|assumption|assumption|pieces|reflexivity|reflexivity].
  change (LOG_BUF - 1) with 4095. tail w. unfold rtmp_before, crlf2. flat.
Qed.
Lemma no_nul_app a b : no_nul a -> no_nul b -> no_nul (a ++ b).
Proof. intros Ha Hb I. apply in_app_or in I. destruct I as [I|I]; [exact (Ha I)|exact (Hb I)]. Qed.
Lemma no_percent_app a b : no_percent a -> no_percent b -> no_percent (a ++ b).
Proof. intros Ha Hb I. apply in_app_or in I. destruct I as [I|I]; [exact (Ha I)|exact (Hb I)]. Qed.
Lemma play_core t w name playing :
  stamp_ok t -> where_ok w -> no_nul name -> is_int playing ->
  log_play (Some t) w name playing = cfmt (take 4095 (stamp_str t ++ where_text w ++ str "Play stream /" ++ name ++ play_after playing)) [].
Proof.
  intros Ht Hw Hn Hp. unfold log_play.
  assert (N : no_nul (str "/" ++ name)) by (apply no_nul_app; [intros [|[]]; discriminate|exact Hn]).
  rewrite (info_core t w [PWords (str "Play stream "); PStr (str "/" ++ name); PWords (str ", playing: "); PNum playing; PWords [13; 10]]); [|assumption|assumption|pieces|reflexivity|reflexivity].
  change (LOG_BUF - 1) with 4095. tail w. unfold play_after, crlf2. flat.
Qed.
Lemma publish_core t w name kind playing :
  stamp_ok t -> where_ok w -> no_nul name -> no_nul kind -> is_int playing ->
  log_publish (Some t) w name kind playing =
  cfmt (take 4095 (stamp_str t ++ where_text w ++ str "Publish stream /" ++ name ++ publish_after kind playing)) [].
Proof.
  intros Ht Hw Hn Hk Hp. unfold log_publish.
  assert (N : no_nul (str "/" ++ name)) by (apply no_nul_app; [intros [|[]]; discriminate|exact Hn]).
  rewrite (info_core t w [PWords (str "Publish stream "); PStr (str "/" ++ name); PWords (str ", "); PStr kind; PWords (str ", playing "); PNum playing; PWords [13; 10]]); [|assumption|assumption|pieces|reflexivity|reflexivity].
  change (LOG_BUF - 1) with 4095. tail w. unfold publish_after, crlf2. flat.
Qed.
Lemma srt_core t w sid url mode :
  stamp_ok t -> where_ok w -> no_nul sid -> no_nul url -> no_nul mode ->
  log_srt (Some t) w sid url mode =
  cfmt (take 4095 (stamp_str t ++ where_text w ++ str "success parse srt streamid " ++ sid ++ srt_after url mode)) [].
Proof.
  intros. unfold log_srt.
  rewrite (info_core t w [PWords (str "success parse srt streamid "); PStr sid; PWords (str ", url "); PStr url; PWords (str ", mode "); PStr mode; PWords [13; 10]]); [|assumption|assumption|pieces|reflexivity|reflexivity].
  change (LOG_BUF - 1) with 4095. tail w. unfold srt_after, crlf2. flat.
Qed.

Lemma take_percent pre c b : no_percent pre -> c <> 37 -> zlen pre < 4095 ->
  cfmt (take 4095 (pre ++ 37 :: c :: b)) [] = UB.
Proof.
  intros Hp Hc Hl. destruct (plain_total (take 4095 (pre ++ 37 :: c :: b))) as [[u D]|E]; [exfalso|exact E].
  rewrite take_app_ge in D by lia. 
  destruct (Z.eq_dec (zlen pre) 4094) as [H|H].
  - rewrite H in D. change (take (4095 - 4094) (37 :: c :: b)) with [37] in D. exact (last_percent _ Hp _ D).
  - assert (E : take (4095 - zlen pre) (37 :: c :: b) = 37 :: c :: take (4093 - zlen pre) b).
    { unfold take. replace (Z.to_nat (4095 - zlen pre)) with (S (S (Z.to_nat (4093 - zlen pre)))) by lia. reflexivity. }
    rewrite E in D. exact (single_percent _ _ _ Hp Hc _ D).
Qed.

Lemma stamp_pct t : stamp_ok t -> no_percent (stamp_str t).
Proof. intros H I. pose proof (stamp_chars t H) as F. rewrite Forall_forall in F. destruct (F _ I). lia. Qed.
Lemma decs_pct n : no_percent (decs n).
Proof. intros I. pose proof (dec_chars n) as F. rewrite Forall_forall in F. specialize (F _ I). lia. Qed.
Lemma lit_pct s : forallb (fun c => negb (c =? 37)) s = true -> no_percent s.
Proof. intros F I. rewrite forallb_forall in F. specialize (F _ I). discriminate. Qed.
Ltac pct := repeat first [assumption|apply decs_pct|apply no_percent_app|apply lit_pct; reflexivity].
Lemma where_pct w : where_ok w -> no_percent (where_text w).
Proof. intros (H & _). unfold where_text. pct. Qed.

Lemma doubled_len s u : doubled s u -> zlen u <= zlen s.
Proof. unfold zlen. induction 1; cbn [length]; lia. Qed.
Lemma doubled_fun s u v : doubled s u -> doubled s v -> u = v.
Proof. intros A B. apply plain_ok in A. apply plain_ok in B. congruence. Qed.
Lemma take_len {A} n (l : list A) : 0 <= n -> zlen (take n l) <= n.
Proof. intros H. unfold zlen, take. rewrite firstn_length. lia. Qed.
