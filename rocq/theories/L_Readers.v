From Verif Require Import Base M_IO S_IO L_IO M_File L_File S_Readers.

Lemma lf_free l : (forall c, In c l -> c <> LF) -> ~ In 10 l.
Proof. intros H Hi. exact (H 10 Hi eq_refl). Qed.
Lemma app_take {A} n (l : list A) : l = take n l ++ drop n l.
Proof. symmetry. apply take_drop. Qed.

Definition at_text (m : memio) (t : list Z) : Prop := exists p, mem_buf m = p ++ t /\ mem_pos m = zlen p.

Lemma mem_one m t a : at_text m t -> positive a ->
  exists r m1 t1, (match a with ASome n => mem_read m n | AExactly n => mem_read_fully m n | ALine => mem_read_line m end) = (r, m1) /\
    mem_gives t a r t1 /\ at_text m1 t1 /\ mem_buf m1 = mem_buf m.
Proof.
  intros (p & Hb & Hp) Ha. pose proof (zlen_nonneg t) as Nt. pose proof (zlen_nonneg p) as Np.
  assert (Left : zlen (mem_buf m) - mem_pos m = zlen t) by (rewrite Hb, Hp, zlen_app; lia).
  destruct a as [n|n|]; cbn [positive] in Ha.
  - unfold mem_read. rewrite Left. replace (n =? 0) with false by lia. destruct (Z.leb_spec (Z.min n (zlen t)) 0) as [L|L].
    + assert (t = []) by (destruct t; [reflexivity|rewrite zlen_cons in *; pose proof (zlen_nonneg t); lia]). subst t.
      do 3 eexists. split; [reflexivity|]. split; [constructor|]. split; [exists p; auto|reflexivity].
    + rewrite Hb, Hp. rewrite slice_some by (rewrite ?zlen_app; lia). rewrite drop_app_exact by reflexivity. cbn [of_opt].
      do 3 eexists. split; [reflexivity|]. split; [|split].
      * rewrite (app_take (Z.min n (zlen t)) t) at 1. apply mg_some.
        -- intros E. apply (f_equal zlen) in E. rewrite zlen_take in E by lia. change (zlen []) with 0 in E. lia.
        -- rewrite zlen_take by lia. lia.
        -- intros Hd. rewrite zlen_take by lia. destruct (Z.le_gt_cases n (zlen t)); [lia|]. exfalso. apply Hd. apply drop_all. lia.
      * exists (p ++ take (Z.min n (zlen t)) t). cbn [mem_buf mem_pos]. rewrite <- app_assoc, take_drop. split; [reflexivity|]. rewrite zlen_app, zlen_take by lia. lia.
      * reflexivity.
  - unfold mem_read_fully. rewrite Left. destruct (Z.ltb_spec (Z.min n (zlen t)) n) as [L|L]; cbn [orb].
    + do 3 eexists. split; [reflexivity|]. split; [apply mg_few; lia|]. split; [exists p; auto|reflexivity].
    + replace (Z.min n (zlen t)) with n by lia. replace (n =? 0) with false by lia.
      rewrite Hb, Hp. rewrite slice_some by (rewrite ?zlen_app; lia). rewrite drop_app_exact by reflexivity. cbn [of_opt].
      do 3 eexists. split; [reflexivity|]. split; [|split].
      * rewrite (app_take n t) at 1. apply mg_exactly; [rewrite zlen_take by lia; lia|].
        intros E. apply (f_equal zlen) in E. rewrite zlen_take in E by lia. change (zlen []) with 0 in E. lia.
      * exists (p ++ take n t). cbn [mem_buf mem_pos]. rewrite <- app_assoc, take_drop. split; [reflexivity|]. rewrite zlen_app, zlen_take by lia. lia.
      * reflexivity.
  - unfold mem_read_line. destruct (Z.leb_spec (zlen (mem_buf m)) (mem_pos m)) as [L|L].
    + assert (t = []) by (destruct t; [reflexivity|rewrite zlen_cons in *; pose proof (zlen_nonneg t); lia]). subst t.
      do 3 eexists. split; [reflexivity|]. split; [constructor|]. split; [exists p; auto|reflexivity].
    + rewrite Hb, Hp. rewrite drop_app_exact by reflexivity. rewrite zlen_app.
      destruct (first_lf t) as [Hno|(a & s & -> & Hno)].
      * rewrite line_scan_all by exact Hno. replace (zlen p + zlen t <? zlen p + zlen t) with false by lia.
        replace (zlen p + zlen t - zlen p) with (zlen t) by lia. replace (p ++ t) with (p ++ t ++ []) by (rewrite app_nil_r; reflexivity). rewrite slice_app by reflexivity. cbn [of_opt].
        do 3 eexists. split; [reflexivity|]. split; [apply mg_last; [apply lf_free, Hno|]|split].
        -- intros ->. change (zlen []) with 0 in *. lia.
        -- exists (p ++ t). cbn [mem_buf mem_pos]. rewrite <- app_assoc, zlen_app. split; [reflexivity|lia].
        -- cbn. reflexivity.
      * rewrite line_scan_app by exact Hno. rewrite zlen_app, zlen_cons. pose proof (zlen_nonneg a). pose proof (zlen_nonneg s).
        destruct s as [|c s].
        -- change (zlen []) with 0. replace (zlen p + (zlen a + 1) <? zlen p + (zlen a + (1 + 0))) with false by lia.
           replace (zlen p + (zlen a + 1) - zlen p) with (zlen (a ++ [10])) by (rewrite zlen_app; change (zlen [10]) with 1; lia).
           replace (p ++ a ++ LF :: []) with (p ++ (a ++ [10]) ++ []) by (rewrite app_nil_r; reflexivity). rewrite slice_app by reflexivity. cbn [of_opt].
           do 3 eexists. split; [reflexivity|]. split; [apply mg_last_lf, lf_free, Hno|split].
           ++ exists (p ++ a ++ [10]). cbn [mem_buf mem_pos]. rewrite <- !app_assoc, zlen_app. cbn [app]. split; [reflexivity|]. rewrite zlen_app. change (zlen [10]) with 1. lia.
           ++ cbn. rewrite app_nil_r. reflexivity.
        -- rewrite zlen_cons in *. pose proof (zlen_nonneg s). replace (zlen p + (zlen a + 1) <? zlen p + (zlen a + (1 + (1 + zlen s)))) with true by lia.
           replace (zlen p + (zlen a + 1) - zlen p - 1) with (zlen a) by lia. rewrite slice_app by reflexivity. cbn [of_opt].
           do 3 eexists. split; [reflexivity|]. split; [apply mg_line; [apply lf_free, Hno|discriminate]|split].
           ++ exists (p ++ a ++ [10]). cbn [mem_buf mem_pos]. rewrite <- !app_assoc. cbn [app]. split; [reflexivity|]. rewrite !zlen_app. change (zlen [10]) with 1. lia.
           ++ reflexivity.
Qed.
Lemma mem_all l : forall m t, at_text m t -> Forall positive l ->
  exists rs m1 t1, mem_asks m l = (rs, m1) /\ mem_answers t l rs t1 /\ mem_buf m1 = mem_buf m.
Proof.
  induction l as [|a l IH]; intros m t Hm HF; [do 3 eexists; split; [reflexivity|split; [constructor|reflexivity]]|].
  inversion HF as [|? ? Ha HF']; subst. destruct (mem_one m t a Hm Ha) as (r & m1 & t1 & E & G & A & B).
  destruct (IH m1 t1 A HF') as (rs & m2 & t2 & E2 & G2 & B2). cbn [mem_asks]. rewrite E, E2.
  do 3 eexists. split; [reflexivity|]. split; [econstructor; eauto|congruence].
Qed.

Definition at_file (f : fstm) (t : option (list Z)) : Prop :=
  f_bad f = false /\ match t with Some l => f_left f = l /\ f_eof f = false /\ f_fail f = false | None => f_eof f = true end.
Lemma upto_lf_app : forall l acc r, ~ In 10 l -> upto_lf acc (l ++ 10 :: r) = (acc ++ l, Some r).
Proof.
  induction l as [|c l IH]; intros acc r H; cbn [app upto_lf]; [rewrite app_nil_r; reflexivity|].
  replace (c =? 10) with false by (symmetry; apply Z.eqb_neq; intros ->; apply H; left; reflexivity).
  rewrite IH by (intros K; apply H; right; exact K). rewrite <- app_assoc. reflexivity.
Qed.
Lemma upto_lf_free : forall l acc, ~ In 10 l -> upto_lf acc l = (acc ++ l, None).
Proof.
  induction l as [|c l IH]; intros acc H; cbn [upto_lf]; [rewrite app_nil_r; reflexivity|].
  replace (c =? 10) with false by (symmetry; apply Z.eqb_neq; intros ->; apply H; left; reflexivity).
  rewrite IH by (intros K; apply H; right; exact K). rewrite <- app_assoc. reflexivity.
Qed.
Lemma file_one f t a : at_file f t -> positive a ->
  exists r f1 t1, (match a with ASome n => f_read f n | AExactly n => f_read_fully f n | ALine => f_read_line f end) = (r, f1) /\
    file_gives t a r t1 /\ at_file f1 t1 /\ f_out f1 = f_out f.
Proof.
  intros (Hbad & Ht) Ha. destruct t as [t|].
  - destruct Ht as (Hl & He & Hf). assert (G : f_good f = true) by (unfold f_good; rewrite He, Hf, Hbad; reflexivity).
    pose proof (zlen_nonneg t). destruct a as [n|n|]; cbn [positive] in Ha.
    + unfold f_read, is_read. rewrite He, Hf, Hbad, G, Hl. cbn [orb]. destruct (Z.ltb_spec (zlen (take n t)) n) as [L|L]; rewrite zlen_take in L by lia.
      * rewrite take_all by lia. do 3 eexists. split; [reflexivity|]. split; [apply fg_rest; lia|]. split; [split; [first [exact Hbad|reflexivity]|reflexivity]|reflexivity].
      * do 3 eexists. split; [reflexivity|]. split; [rewrite (app_take n t) at 1; apply fg_some; rewrite zlen_take by lia; lia|].
        split; [split; [first [exact Hbad|reflexivity]|cbn; auto]|reflexivity].
    + unfold f_read_fully, is_read. rewrite G, Hl. destruct (Z.ltb_spec (zlen (take n t)) n) as [L|L]; rewrite zlen_take in L by lia; cbn [f_fail f_bad orb].
      * do 3 eexists. split; [reflexivity|]. split; [apply fg_few; lia|]. split; [split; [first [exact Hbad|reflexivity]|reflexivity]|reflexivity].
      * rewrite Hbad. do 3 eexists. split; [reflexivity|]. split; [rewrite (app_take n t) at 1; apply fg_exactly; rewrite zlen_take by lia; lia|].
        split; [split; [reflexivity|cbn; auto]|reflexivity].
    + unfold f_read_line. rewrite G, Hl. destruct (first_lf t) as [Hno|(a & s & -> & Hno)]; apply lf_free in Hno.
      * rewrite upto_lf_free by exact Hno. cbn [app]. destruct t as [|c t]; cbn [f_fail f_bad f_eof orb negb].
        -- do 3 eexists. split; [reflexivity|]. split; [apply fg_none|]. split; [split; reflexivity|reflexivity].
        -- do 3 eexists. split; [reflexivity|]. split; [apply fg_last; [exact Hno|discriminate]|]. split; [split; reflexivity|reflexivity].
      * rewrite upto_lf_app by exact Hno. cbn [app f_fail f_bad f_eof orb negb].
        do 3 eexists. split; [reflexivity|]. split; [apply fg_line; exact Hno|]. split; [split; cbn; auto|reflexivity].
  - assert (G : f_good f = false) by (unfold f_good; rewrite Ht; reflexivity).
    destruct a as [n|n|].
    + unfold f_read. rewrite Ht. do 3 eexists. split; [reflexivity|]. split; [constructor|]. split; [split; assumption|reflexivity].
    + unfold f_read_fully, is_read. rewrite G. cbn [f_fail orb]. do 3 eexists. split; [reflexivity|]. split; [constructor|]. split; [split; assumption|reflexivity].
    + unfold f_read_line. rewrite G. cbn [f_fail f_bad f_eof orb negb]. rewrite Ht. do 3 eexists. split; [reflexivity|]. split; [constructor|].
      split; [split; [first [exact Hbad|reflexivity]|reflexivity]|reflexivity].
Qed.
Lemma file_all l : forall f t, at_file f t -> Forall positive l ->
  exists rs f1 t1, file_asks f l = (rs, f1) /\ file_answers t l rs t1 /\ f_out f1 = f_out f.
Proof.
  induction l as [|a l IH]; intros f t Hm HF; [do 3 eexists; split; [reflexivity|split; [constructor|reflexivity]]|].
  inversion HF as [|? ? Ha HF']; subst. destruct (file_one f t a Hm Ha) as (r & m1 & t1 & E & G & A & B).
  destruct (IH m1 t1 A HF') as (rs & m2 & t2 & E2 & G2 & B2). cbn [file_asks]. rewrite E, E2.
  do 3 eexists. split; [reflexivity|]. split; [econstructor; eauto|congruence].
Qed.

(** One split at the first newline. *)
Lemma lf_split_unique : forall a b a' b', ~ In 10 a -> ~ In 10 a' -> a ++ 10 :: b = a' ++ 10 :: b' -> a = a' /\ b = b'.
Proof.
  induction a as [|c a IH]; intros b a' b' H H' E; destruct a' as [|c' a']; cbn in E.
  - injection E as ->. auto.
  - injection E as <- _. exfalso. apply H'. left. reflexivity.
  - injection E as -> _. exfalso. apply H. left. reflexivity.
  - injection E as -> E. destruct (IH b a' b') as [-> ->]; auto; intros K; [apply H|apply H']; right; exact K.
Qed.
Lemma len_split_unique {A} (a b a' b' : list A) : zlen a = zlen a' -> a ++ b = a' ++ b' -> a = a' /\ b = b'.
Proof.
  intros H E. split.
  - rewrite <- (take_app_exact (zlen a) a b), <- (take_app_exact (zlen a) a' b') by auto. rewrite E. reflexivity.
  - rewrite <- (drop_app_exact (zlen a) a b), <- (drop_app_exact (zlen a) a' b') by auto. rewrite E. reflexivity.
Qed.
Lemma in_lf a b : In 10 (a ++ 10 :: b).
Proof. apply in_or_app. right. left. reflexivity. Qed.
Lemma some_unique n (a b a' b' : list Z) : a ++ b = a' ++ b' -> zlen a <= n -> (b <> [] -> zlen a = n) -> zlen a' <= n -> (b' <> [] -> zlen a' = n) -> a = a' /\ b = b'.
Proof.
  intros E L1 F1 L2 F2. apply len_split_unique; [|exact E]. apply (f_equal zlen) in E. rewrite !zlen_app in E.
  destruct b as [|x b], b' as [|x' b'].
  - change (zlen (@nil Z)) with 0 in E. lia.
  - specialize (F2 ltac:(discriminate)). rewrite zlen_cons in E. change (zlen (@nil Z)) with 0 in E. pose proof (zlen_nonneg b'). lia.
  - specialize (F1 ltac:(discriminate)). rewrite zlen_cons in E. change (zlen (@nil Z)) with 0 in E. pose proof (zlen_nonneg b). lia.
  - rewrite F1, F2 by discriminate. reflexivity.
Qed.

Ltac gives_solve :=
  repeat match goal with
  | E : [] = _ ++ _ |- _ => symmetry in E; apply app_eq_nil in E; destruct E; subst
  | E : _ ++ _ = [] |- _ => apply app_eq_nil in E; destruct E; subst
  | H : [] <> [] |- _ => contradiction
  end;
  try discriminate; try (split; reflexivity);
  try match goal with
  | H : ~ In 10 (_ ++ 10 :: _) |- _ => exfalso; apply H; apply in_lf
  | E : _ ++ 10 :: _ = _ ++ 10 :: _ |- _ => apply lf_split_unique in E; [|assumption|assumption]; destruct E; subst
  | E : _ ++ _ = _ ++ _ |- _ => first
      [apply len_split_unique in E; [|congruence]; destruct E; subst
      |match goal with |- context[Ok ?a = Ok _] => match type of E with _ => eapply some_unique in E; [|eassumption|eassumption|eassumption|eassumption]; destruct E; subst end end]
  end;
  try contradiction; try (split; reflexivity);
  try match goal with b : list Z, H : zlen (_ ++ ?b) < _ |- _ => exfalso; rewrite zlen_app in H; pose proof (zlen_nonneg b); lia end.
Lemma mem_gives_det t a r1 t1 r2 t2 : positive a -> mem_gives t a r1 t1 -> mem_gives t a r2 t2 -> r1 = r2 /\ t1 = t2.
Proof.
  intros Hp H1 H2. remember t as t' eqn:Et in H2. remember a as a' eqn:Ea in H2.
  destruct H1; destruct H2; try discriminate Ea; subst; cbn [positive] in *; try (injection Ea as Ea; subst); gives_solve.
Qed.
Lemma file_gives_det t a r1 t1 r2 t2 : file_gives t a r1 t1 -> file_gives t a r2 t2 -> r1 = r2 /\ t1 = t2.
Proof.
  intros H1 H2. remember t as t' eqn:Et in H2. remember a as a' eqn:Ea in H2.
  destruct H1; destruct H2; try discriminate Ea; try discriminate Et; try (injection Et as Et); try (injection Ea as Ea); subst; gives_solve.
Qed.
