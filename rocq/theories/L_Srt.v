(** Lemmas for SRT sockets. *)
From Verif Require Import Base M_IO M_Srt S_Srt.

(** ** Reads *)
Definition srt_ok (s : srts) : Prop :=
  zlen (ab_data (sr_buf s)) = 1316 /\ ab_rw (sr_buf s) = false /\
  ((ab_ptr (sr_buf s) = 0 /\ ab_end (sr_buf s) = 0) \/ 0 <= ab_ptr (sr_buf s) < ab_end (sr_buf s) /\ ab_end (sr_buf s) <= 1316).
Lemma ab_size_small b : 0 <= ab_ptr b <= ab_end b -> ab_end b <= 1316 -> ab_size b = ab_end b - ab_ptr b.
Proof. intros. unfold ab_size, u64. apply Z.mod_small. split; [lia|]. apply Z.le_lt_trans with 1316; [lia|reflexivity]. Qed.
Lemma srt_serve_spec s size : srt_ok s -> 0 <= size ->
  exists d s1, srt_serve s size = (Ok d, s1) /\ srt_ok s1 /\ sr_evs s1 = sr_evs s /\ d ++ unread s1 = unread s /\ zlen d = Z.min size (zlen (unread s)).
Proof.
  intros (Hl & Hrw & Hp) Hs. unfold srt_serve, unread. destruct s as [[dat p e rw] evs]. cbn [sr_buf sr_evs ab_data ab_ptr ab_end ab_rw] in *.
  assert (0 <= p <= e /\ e <= 1316) as (H1 & H2) by lia.
  rewrite (ab_size_small (mkab dat p e rw)) by (cbn; lia). cbn [ab_ptr ab_end ab_data].
  rewrite slice_some by lia.
  set (n := Z.min size (e - p)). assert (0 <= n <= e - p) as Hn by lia.
  eexists _, _. split; [reflexivity|]. unfold ab_skip. cbn [ab_data ab_ptr ab_end ab_rw].
  rewrite (ab_size_small (mkab dat (p + n) e rw)) by (cbn; lia). cbn [ab_ptr ab_end].
  assert (zlen (take (e - p) (drop p dat)) = e - p) as Hz by (rewrite zlen_take, zlen_drop by lia; lia).
  destruct (e - (p + n) =? 0) eqn:E.
  - replace n with (e - p) by lia. unfold ab_clear. unfold srt_ok. cbn [sr_buf sr_evs ab_data ab_ptr ab_end ab_rw].
    split; [auto|]. split; [reflexivity|]. rewrite (take_0 (0 - 0)) by lia. rewrite app_nil_r. split; [reflexivity|]. rewrite Hz. lia.
  - unfold srt_ok. cbn [sr_buf sr_evs ab_data ab_ptr ab_end ab_rw]. split; [split; [exact Hl|split; [exact Hrw|right; lia]]|]. split; [reflexivity|]. split.
    + replace (p + n) with (n + p) by lia. rewrite <- drop_drop by lia. replace (e - (n + p)) with ((e - p) - n) by lia.
      assert (take n (drop p dat) = take n (take (e - p) (drop p dat))) as -> by (rewrite take_take; f_equal; lia).
      assert (take (e - p - n) (drop n (drop p dat)) = drop n (take (e - p) (drop p dat))) as ->.
      { unfold take, drop. rewrite skipn_firstn_comm. f_equal. lia. }
      apply take_drop.
    + rewrite Hz, zlen_take, zlen_drop by lia. lia.
Qed.
Lemma st_srt_read_used evs : forall n r l, st_srt_read evs n = (r, l) -> 1316 <= n -> live_messages evs ->
  exists used, evs = used ++ l /\ live_messages l /\
    match r with
    | Ok d => messages used = [d] /\ 1 <= zlen d <= 1316
    | Err _ | Fuel => messages used = []
    | UB => False
    end.
Proof.
  induction evs as [|e evs IH]; intros n r l H Hn Hm; cbn [st_srt_read] in H.
  - injection H as <- <-. exists []. split; [reflexivity|]. split; [exact Hm|reflexivity].
  - destruct e as [d|c| |].
    + unfold SRT_PLSIZE in H. replace (n <? 1316) with false in H by lia. injection H as <- <-. pose proof (Forall_inv Hm) as Hd. cbn beta in Hd.
      exists [SvMsg d]. split; [reflexivity|]. split; [exact (Forall_inv_tail Hm)|]. rewrite take_all by lia. split; [reflexivity|exact Hd].
    + destruct (c =? 0).
      * destruct (IH _ _ _ H Hn Hm) as (u & -> & A & B). exists (SvAgain c :: u). split; [reflexivity|]. split; [exact A|exact B].
      * injection H as <- <-. exists [SvAgain c]. split; [reflexivity|]. split; [exact Hm|reflexivity].
    + injection H as <- <-. exists [SvFail]. split; [reflexivity|]. split; [exact Hm|reflexivity].
    + injection H as <- <-. exists [SvClosed]. split; [reflexivity|]. split; [exact Hm|reflexivity].
Qed.
Lemma messages_app a b : messages (a ++ b) = messages a ++ messages b.
Proof. induction a as [|[d|c| |] a IH]; cbn; rewrite ?IH; reflexivity. Qed.
Lemma unread_empty s : ab_ptr (sr_buf s) = 0 -> ab_end (sr_buf s) = 0 -> unread s = [].
Proof. intros Hp He. unfold unread. rewrite Hp, He. apply take_0. lia. Qed.
Lemma srt_read_spec s size r s1 : srt_ok s -> 0 <= size -> live_messages (sr_evs s) -> srt_read s size = (r, s1) ->
  srt_ok s1 /\ live_messages (sr_evs s1) /\ exists used, sr_evs s = used ++ sr_evs s1 /\
  match r with
  | Ok d => d ++ unread s1 = unread s ++ concat (messages used) /\ zlen d <= size /\ (0 < size -> 0 < zlen d)
  | Err _ | Fuel => unread s1 = unread s /\ messages used = []
  | UB => False
  end.
Proof.
  intros Hok Hs Hm H. unfold srt_read in H. pose proof Hok as (Hl & Hrw & Hp).
  rewrite ab_size_small in H by lia. destruct (0 <? ab_end (sr_buf s) - ab_ptr (sr_buf s)) eqn:E.
  - destruct (srt_serve_spec s size Hok Hs) as (d & s2 & E2 & O2 & V2 & U2 & Z2). rewrite E2 in H. injection H as <- <-.
    split; [exact O2|]. split; [rewrite V2; exact Hm|]. exists []. split; [rewrite V2; reflexivity|]. cbn [messages concat]. rewrite app_nil_r.
    split; [exact U2|]. split; [lia|]. intros Hp0. rewrite Z2. assert (zlen (unread s) = ab_end (sr_buf s) - ab_ptr (sr_buf s)) as -> by (unfold unread; rewrite zlen_take, zlen_drop by lia; lia). lia.
  - assert (ab_ptr (sr_buf s) = 0 /\ ab_end (sr_buf s) = 0) as (P0 & E0) by lia.
    destruct (size <? SRT_PLSIZE) eqn:Es; unfold SRT_PLSIZE in Es.
    + assert (ab_cap_size (sr_buf s) = 1316) as Hc.
      { unfold ab_cap_size, ab_norewind, ab_cap. rewrite Hrw, P0, Hl. reflexivity. }
      rewrite Hc in H. destruct (st_srt_read (sr_evs s) 1316) as [r0 l] eqn:Er.
      destruct (st_srt_read_used _ _ _ _ Er ltac:(lia) Hm) as (used & Hu & Hml & Hr).
      destruct r0 as [d|c| |]; try (injection H as <- <-; (split; [exact Hok|]; split; [exact Hml|]; exists used; split; [exact Hu|]; first [exact Hr|split; [reflexivity|exact Hr]])).
      destruct Hr as (Hmu & Hd). unfold ab_store in H. replace ((0 <=? 0) && (0 + zlen d <=? ab_cap (sr_buf s))) with true in H by (unfold ab_cap; lia).
      rewrite (take_0 0) in H by lia. cbn [app ab_data ab_ptr ab_end ab_rw] in H. rewrite P0, E0, Hrw in H.
      set (s0 := mksrt (mkab (d ++ drop (0 + zlen d) (ab_data (sr_buf s))) 0 (0 + zlen d) false) l) in H.
      assert (srt_ok s0) as Hok0.
      { unfold s0, srt_ok. cbn [sr_buf ab_data ab_ptr ab_end ab_rw]. split; [rewrite zlen_app, zlen_drop by lia; lia|]. split; [reflexivity|]. right. lia. }
      assert (unread s0 = d) as Hu0.
      { unfold s0, unread. cbn [sr_buf ab_data ab_ptr ab_end]. rewrite drop_0 by lia. apply take_app_exact. lia. }
      destruct (srt_serve_spec s0 size Hok0 Hs) as (x & s2 & E2 & O2 & V2 & U2 & Z2). rewrite E2 in H. injection H as <- <-.
      split; [exact O2|]. split; [rewrite V2; exact Hml|]. exists used. split; [rewrite V2; exact Hu|].
      rewrite U2, Hu0, Hmu, (unread_empty s P0 E0). cbn [concat app]. rewrite app_nil_r. split; [reflexivity|]. rewrite Hu0 in Z2. lia.
    + destruct (st_srt_read (sr_evs s) size) as [r0 l] eqn:Er. injection H as <- <-.
      destruct (st_srt_read_used _ _ _ _ Er ltac:(lia) Hm) as (used & Hu & Hml & Hr).
      split; [exact Hok|]. split; [exact Hml|]. exists used. split; [exact Hu|].
      destruct r0 as [d|c| |]; [|split; [reflexivity|exact Hr]|exact Hr|split; [reflexivity|exact Hr]].
      destruct Hr as (Hmu & Hd). rewrite Hmu, (unread_empty s P0 E0). rewrite (unread_empty (mksrt (sr_buf s) l)) by assumption.
      cbn [concat app]. split; [reflexivity|]. lia.
Qed.
Lemma srt_reads_spec sizes : forall s rs s1, srt_ok s -> Forall (fun n => 0 < n) sizes -> live_messages (sr_evs s) -> srt_reads s sizes = (rs, s1) ->
  exists used, sr_evs s = used ++ sr_evs s1 /\ concat (oks rs) ++ unread s1 = unread s ++ concat (messages used) /\
  Forall2 (fun n r => match r with Ok d => 0 < zlen d <= n | UB => False | _ => True end) sizes rs.
Proof.
  induction sizes as [|n sizes IH]; intros s rs s1 Hok Hs Hm H; cbn [srt_reads] in H.
  - injection H as <- <-. exists []. split; [reflexivity|]. split; [cbn; rewrite app_nil_r; reflexivity|constructor].
  - destruct (srt_read s n) as [r s2] eqn:Er. destruct (srt_reads s2 sizes) as [rs2 s3] eqn:E2. injection H as <- <-.
    pose proof (Forall_inv Hs) as Hn. cbn beta in Hn.
    destruct (srt_read_spec s n r s2 Hok ltac:(lia) Hm Er) as (O2 & M2 & used & Hu & Hr).
    destruct (IH _ _ _ O2 (Forall_inv_tail Hs) M2 E2) as (used2 & Hu2 & Hc & Hf).
    exists (used ++ used2). split; [rewrite Hu, Hu2, app_assoc; reflexivity|]. split.
    + rewrite messages_app, concat_app. destruct r as [d|c| |]; cbn [oks concat].
      * destruct Hr as (A & _). rewrite <- app_assoc, Hc, !app_assoc, A. reflexivity.
      * destruct Hr as (A & ->). rewrite Hc, A. reflexivity.
      * contradiction.
      * destruct Hr as (A & ->). rewrite Hc, A. reflexivity.
    + constructor; [|exact Hf]. destruct r; [|exact I|exact Hr|exact I]. destruct Hr as (_ & A & B). lia.
Qed.

(** ** Full reads *)
Lemma overlay_len d mem : zlen d <= zlen mem -> zlen (overlay d mem) = zlen mem.
Proof. intros. unfold overlay. pose proof (zlen_nonneg d). rewrite zlen_app, zlen_drop by lia. lia. Qed.
Lemma overlay_drop d mem k : zlen d <= k -> drop k (overlay d mem) = drop k mem.
Proof.
  intros H. unfold overlay. pose proof (zlen_nonneg d). rewrite drop_app_ge by lia. rewrite drop_drop by lia. f_equal. lia.
Qed.
Lemma read_fully_same_tail ds : forall size n mem k, Forall (fun d => 1 <= zlen d <= k) ds -> n + zlen (concat ds) = size ->
  exists mem', read_fully_same (map Ok ds) size n mem = (Ok size, mem') /\ drop k mem' = drop k mem /\ (k <= zlen mem -> zlen mem' = zlen mem).
Proof.
  induction ds as [|d ds IH]; intros size n mem k Hk Hs; cbn [map read_fully_same concat] in *.
  - change (zlen (@nil Z)) with 0 in Hs. replace (size <=? n) with true by lia. replace n with size by lia. exists mem. auto.
  - pose proof (Forall_inv Hk) as Hd. cbn beta in Hd. rewrite zlen_app in Hs. pose proof (zlen_nonneg (concat ds)).
    replace (size <=? n) with false by lia.
    destruct (IH size (n + zlen d) (overlay d mem) k (Forall_inv_tail Hk) ltac:(lia)) as (m & A & B & C).
    exists m. split; [exact A|]. rewrite B. split; [apply overlay_drop; lia|]. intros Hz. rewrite C; rewrite overlay_len by lia; lia.
Qed.
Lemma max_len (ds : list (list Z)) : Forall (fun d => 1 <= zlen d) ds -> (2 <= length ds)%nat ->
  exists k, 0 <= k < zlen (concat ds) /\ Forall (fun d => 1 <= zlen d <= k) ds.
Proof.
  intros Hn H2. exists (zlen (concat ds) - 1).
  destruct ds as [|a [|b ds]]; cbn [length] in H2; try lia.
  pose proof (Forall_inv Hn) as Ha. pose proof (Forall_inv (Forall_inv_tail Hn)) as Hb. cbn beta in Ha, Hb.
  split; [cbn [concat]; rewrite !zlen_app; pose proof (zlen_nonneg (concat ds)); lia|].
  rewrite Forall_forall. intros d Hin. rewrite Forall_forall in Hn. split; [apply Hn; exact Hin|].
  destruct (in_split _ _ Hin) as (l1 & l2 & Hs). rewrite Hs. rewrite concat_app. cbn [concat]. rewrite !zlen_app.
  pose proof (zlen_nonneg (concat l1)). pose proof (zlen_nonneg (concat l2)).
  assert (1 <= zlen (concat l1) + zlen (concat l2)); [|lia].
  destruct l1 as [|x l1].
  - destruct l2 as [|y l2]; [discriminate|]. cbn [concat]. rewrite zlen_app. assert (1 <= zlen y) by (apply Hn; rewrite Hs; right; left; reflexivity).
    pose proof (zlen_nonneg (concat l2)). change (zlen (@nil Z)) with 0. lia.
  - cbn [concat]. rewrite zlen_app. assert (1 <= zlen x) by (apply Hn; rewrite Hs; left; reflexivity). pose proof (zlen_nonneg (concat l1)). lia.
Qed.

(** ** Writes *)
Lemma st_srt_write_ok fuel : forall evs data ms, (length data < fuel)%nat -> st_srt_write fuel evs data = (ms, Ok tt) -> packed ms data.
Proof.
  induction fuel as [|fuel IH]; intros evs data ms Hf H; [lia|]. cbn [st_srt_write] in H. destruct data as [|x data]; [injection H as <-; constructor|].
  remember (x :: data) as dt eqn:Ed. destruct (srt_sendmsg evs) as [[u|c| |] l]; try discriminate.
  destruct (st_srt_write fuel l _) as [ms1 r1] eqn:E1. injection H as <- ->.
  assert (1 <= zlen dt) as Hz by (rewrite Ed, zlen_cons; pose proof (zlen_nonneg data); lia).
  unfold SRT_PLSIZE in *. destruct (1316 <? zlen dt) eqn:El.
  - apply IH in E1; [|unfold drop; rewrite skipn_length; unfold zlen in *; lia].
    rewrite <- (take_drop 1316 dt) at 2. constructor; [rewrite zlen_take; lia|exact E1].
  - rewrite drop_all in E1 by lia. destruct fuel as [|fuel]; [rewrite Ed in Hf; cbn [length] in Hf; lia|].
    cbn [st_srt_write] in E1. injection E1 as <-. rewrite take_all by lia. constructor. lia.
Qed.
Lemma st_srt_write_prefix fuel : forall evs data ms r, (length data < fuel)%nat -> st_srt_write fuel evs data = (ms, r) ->
  (exists rest, concat ms ++ rest = data) /\ Forall (fun m => 1 <= zlen m <= 1316) ms /\ r <> UB.
Proof.
  induction fuel as [|fuel IH]; intros evs data ms r Hf H; [lia|]. cbn [st_srt_write] in H.
  destruct data as [|x data]; [injection H as <- <-; split; [exists []; reflexivity|split; [constructor|discriminate]]|].
  remember (x :: data) as dt eqn:Ed.
  assert (1 <= zlen dt) as Hz by (rewrite Ed, zlen_cons; pose proof (zlen_nonneg data); lia).
  destruct (srt_sendmsg evs) as [s l] eqn:Es. assert (s <> UB) as Hs.
  { clear - Es. revert s l Es. induction evs as [|[|e|] evs IH]; cbn; intros s l; try (intros [= <- <-]; discriminate). destruct (e =? 0); [apply IH|intros [= <- <-]; discriminate]. }
  destruct s as [u|c| |].
  - destruct (st_srt_write fuel l _) as [ms1 r1] eqn:E1. injection H as <- <-. unfold SRT_PLSIZE in *.
    apply IH in E1; [|destruct (1316 <? zlen dt); unfold drop; rewrite skipn_length; unfold zlen in *; lia].
    destruct E1 as ((rest & Hr) & Hm & Hu). split; [|split; [|exact Hu]].
    + exists rest. cbn [concat]. rewrite <- app_assoc, Hr. apply take_drop.
    + constructor; [|exact Hm]. destruct (1316 <? zlen dt) eqn:El; rewrite zlen_take; lia.
  - injection H as <- <-. split; [exists dt; reflexivity|split; [constructor|discriminate]].
  - contradiction.
  - injection H as <- <-. split; [exists dt; reflexivity|split; [constructor|discriminate]].
Qed.
Lemma packed_concat ms d : packed ms d -> concat ms = d.
Proof. induction 1; cbn; rewrite ?app_nil_r; congruence. Qed.
Lemma packed_aligned ms d : packed ms d -> (188 | zlen d) -> Forall (fun m => (188 | zlen m)) ms.
Proof.
  induction 1 as [|m Hm|m ms d Hm Hp IH]; intros Hd; [constructor|constructor; [exact Hd|constructor]|].
  assert (188 | zlen m) as H1 by (rewrite Hm; exists 7; reflexivity). constructor; [exact H1|]. apply IH.
  rewrite zlen_app in Hd. replace (zlen d) with (zlen m + zlen d - zlen m) by lia. apply Z.divide_sub_r; assumption.
Qed.
Lemma sendmsg_all evs : Forall (fun e => e = SsOk) evs -> forall data fuel, (length data < fuel)%nat -> (length data <= length evs)%nat ->
  exists ms, st_srt_write fuel evs data = (ms, Ok tt).
Proof.
  intros H data fuel. revert evs H data. induction fuel as [|fuel IH]; intros evs H data Hf Hl; [lia|]. cbn [st_srt_write].
  destruct data as [|x data]; [eauto|]. remember (x :: data) as dt eqn:Ed. destruct evs as [|e evs]; [rewrite Ed in Hl; cbn [length] in Hl; lia|].
  pose proof (Forall_inv H) as He. cbn beta in He. subst e. cbn [srt_sendmsg].
  assert (1 <= zlen dt) as Hz by (rewrite Ed, zlen_cons; pose proof (zlen_nonneg data); lia). unfold SRT_PLSIZE.
  destruct (IH evs (Forall_inv_tail H) (drop (if 1316 <? zlen dt then 1316 else zlen dt) dt)) as (ms & Hm).
  - destruct (1316 <? zlen dt); unfold drop; rewrite skipn_length; unfold zlen in *; lia.
  - cbn [length] in Hl. destruct (1316 <? zlen dt); unfold drop; rewrite skipn_length; unfold zlen in *; lia.
  - rewrite Hm. eauto.
Qed.

(** ** The dispatcher *)
Lemma zget_del_same {A} (m : list (Z * A)) k : zget (zdel m k) k = None.
Proof. induction m as [|[k' v] m IH]; [reflexivity|]. cbn [zdel filter fst]. destruct (k' =? k) eqn:E; cbn [negb]; [exact IH|]. cbn [zget]. rewrite E. exact IH. Qed.
Lemma zget_del_other {A} (m : list (Z * A)) k j : j <> k -> zget (zdel m k) j = zget m j.
Proof.
  intros H. induction m as [|[k' v] m IH]; [reflexivity|]. cbn [zdel filter fst zget]. destruct (k' =? k) eqn:E; cbn [negb].
  - replace (k' =? j) with false by lia. exact IH.
  - cbn [zget]. destruct (k' =? j); [reflexivity|exact IH].
Qed.
Lemma zget_put_same {A} (m : list (Z * A)) k v : zget (zput m k v) k = Some v.
Proof. unfold zput. cbn [zget]. rewrite Z.eqb_refl. reflexivity. Qed.
Lemma zget_put_other {A} (m : list (Z * A)) k j v : j <> k -> zget (zput m k v) j = zget m j.
Proof. intros H. unfold zput. cbn [zget]. replace (k =? j) with false by lia. apply zget_del_other. exact H. Qed.
Lemma wget_put_same m w v : wget (wput m w v) w = Some v.
Proof. unfold wput. cbn [wget]. rewrite Nat.eqb_refl. reflexivity. Qed.
Lemma wget_put_other m w v x : x <> w -> wget (wput m w v) x = wget m x.
Proof.
  intros H. unfold wput. cbn [wget]. assert (Nat.eqb w x = false) as -> by (apply Nat.eqb_neq; congruence).
  induction m as [|[k u] m IH]; [reflexivity|]. cbn [filter fst wget]. destruct (Nat.eqb k w) eqn:E; cbn [negb].
  - apply Nat.eqb_eq in E. subst k. assert (Nat.eqb w x = false) as -> by (apply Nat.eqb_neq; congruence). exact IH.
  - cbn [wget]. destruct (Nat.eqb k x); [reflexivity|exact IH].
Qed.
Definition evbit (ev : Z) : Prop := ev = EV_IN \/ ev = EV_OUT.
Definition dinv (d : disp) : Prop :=
  (forall w fd ev, wget (dp_wait d) w = Some (WBlocked fd ev) <-> exists l, zget (dp_conds d) fd = Some l /\ In (w, ev) l) /\
  (forall w fd ev, wget (dp_wait d) w = Some (WBlocked fd ev) -> evbit ev /\ exists m, zget (dp_reg d) fd = Some m /\ Z.land m ev <> 0).
Lemma land_lor_keep m n ev : evbit ev -> Z.land m ev <> 0 -> Z.land (Z.lor m n) ev <> 0.
Proof.
  intros Hb H H0. apply H. rewrite Z.land_lor_distr_l in H0. apply Z.lor_eq_0_iff in H0. tauto.
Qed.
Lemma lor_land_comm m n ev : Z.land (Z.lor m n) ev = Z.land (Z.lor n m) ev.
Proof. rewrite Z.lor_comm. reflexivity. Qed.
Lemma evbit_self ev : evbit ev -> Z.land ev ev <> 0.
Proof. intros [-> | ->]; discriminate. Qed.
Lemma exist_evt_has (l : list (nat * Z)) w ev : evbit ev -> In (w, ev) l -> Z.land (fold_right (fun e a => Z.lor (snd e) a) 0 l) ev <> 0.
Proof.
  intros Hb. induction l as [|[w' e'] l IH]; cbn [In fold_right snd]; [tauto|]. intros [[= -> ->]|Hin].
  - apply land_lor_keep; [exact Hb|apply evbit_self; exact Hb].
  - rewrite lor_land_comm. apply land_lor_keep; [exact Hb|auto].
Qed.
Lemma fold_wput_in fd err (hit : list (nat * Z)) : forall m w ev, In (w, ev) hit -> (forall e1 e2, In (w, e1) hit -> In (w, e2) hit -> e1 = e2) ->
  wget (fold_right (fun e m => wput m (fst e) (WWoken fd (snd e) err)) m hit) w = Some (WWoken fd ev err).
Proof.
  induction hit as [|[w' e'] hit IH]; intros m w ev Hin Hu; cbn [In fold_right fst snd] in *; [tauto|].
  destruct (Nat.eq_dec w w') as [<-|Hn].
  - rewrite wget_put_same. f_equal. f_equal. apply Hu; [left; reflexivity|exact Hin].
  - rewrite wget_put_other by exact Hn. destruct Hin as [[= -> ->]|Hin]; [contradiction|]. apply IH; [exact Hin|]. intros; apply Hu; right; assumption.
Qed.
Lemma fold_wput_out fd err (hit : list (nat * Z)) : forall m w, (forall ev, ~ In (w, ev) hit) ->
  wget (fold_right (fun e m => wput m (fst e) (WWoken fd (snd e) err)) m hit) w = wget m w.
Proof.
  induction hit as [|[w' e'] hit IH]; intros m w Hn; cbn [fold_right fst snd]; [reflexivity|].
  rewrite wget_put_other by (intros ->; apply (Hn e'); left; reflexivity). apply IH. intros ev Hin. apply (Hn ev). right. exact Hin.
Qed.
Lemma dinv_unique d w fd l e1 e2 : dinv d -> zget (dp_conds d) fd = Some l -> In (w, e1) l -> In (w, e2) l -> e1 = e2.
Proof.
  intros (H & _) Hl H1 H2. assert (wget (dp_wait d) w = Some (WBlocked fd e1)) as A by (apply H; eauto).
  assert (wget (dp_wait d) w = Some (WBlocked fd e2)) as B by (apply H; eauto). congruence.
Qed.
Lemma d_wait_inv d w fd ev : dinv d -> wget (dp_wait d) w = None -> evbit ev -> dinv (d_wait d w fd ev).
Proof.
  intros (H & R) Hw Hb. unfold d_wait. set (l0 := match zget (dp_conds d) fd with None => [] | Some l => l end).
  set (mask := if match zget (dp_conds d) fd with None => true | Some _ => false end then _ else _).
  assert (forall w' e', In (w', e') l0 -> wget (dp_wait d) w' = Some (WBlocked fd e')) as Hl0.
  { intros w' e' Hin. apply H. unfold l0 in Hin. destruct (zget (dp_conds d) fd) as [l|]; [eauto|destruct Hin]. }
  assert (forall e', evbit e' -> (e' = ev \/ exists w', In (w', e') l0) -> Z.land mask e' <> 0) as Hmask.
  { intros e' He Hc. unfold mask. destruct (zget (dp_conds d) fd) as [l|] eqn:El.
    - apply land_lor_keep; [exact He|]. apply land_lor_keep; [exact He|]. destruct Hc as [->|(w' & Hin)].
      + rewrite lor_land_comm. apply land_lor_keep; [exact He|apply evbit_self; exact He].
      + apply land_lor_keep; [exact He|]. unfold exist_evt. rewrite El. unfold l0 in Hin. eapply exist_evt_has; eassumption.
    - destruct Hc as [->|(w' & [])]. apply land_lor_keep; [exact He|apply evbit_self; exact He]. }
  split; cbn [dp_conds dp_reg dp_wait].
  - intros x f e. destruct (Nat.eq_dec x w) as [->|Hx].
    + rewrite wget_put_same. split.
      * intros [= <- <-]. rewrite zget_put_same. eexists. split; [reflexivity|left; reflexivity].
      * intros (l & Hl & Hin). destruct (Z.eq_dec f fd) as [->|Hf].
        { rewrite zget_put_same in Hl. injection Hl as <-. destruct Hin as [[= ->]|Hin]; [reflexivity|]. apply Hl0 in Hin. congruence. }
        { rewrite zget_put_other in Hl by exact Hf. assert (wget (dp_wait d) w = Some (WBlocked f e)) by (apply H; eauto). congruence. }
    + rewrite wget_put_other by exact Hx. destruct (Z.eq_dec f fd) as [->|Hf].
      * rewrite zget_put_same. split.
        { intros Hg. eexists. split; [reflexivity|]. right. apply H in Hg as (l & Hl & Hin). unfold l0. rewrite Hl. exact Hin. }
        { intros (l & [= <-] & [[= -> ->]|Hin]); [contradiction|]. apply Hl0. exact Hin. }
      * rewrite zget_put_other by exact Hf. apply H.
  - intros x f e Hg. destruct (Nat.eq_dec x w) as [->|Hx].
    + rewrite wget_put_same in Hg. injection Hg as <- <-. split; [exact Hb|]. rewrite zget_put_same. eexists. split; [reflexivity|]. apply Hmask; [exact Hb|left; reflexivity].
    + rewrite wget_put_other in Hg by exact Hx. destruct (R _ _ _ Hg) as (He & m & Hm & Hl). split; [exact He|].
      destruct (Z.eq_dec f fd) as [->|Hf].
      * rewrite zget_put_same. eexists. split; [reflexivity|]. apply Hmask; [exact He|]. right. exists x.
        apply H in Hg as (l & Hl1 & Hin). unfold l0. rewrite Hl1. exact Hin.
      * rewrite zget_put_other by exact Hf. eauto.
Qed.
Lemma d_fire_wakes d fd mask st w ev : dinv d -> wget (dp_wait d) w = Some (WBlocked fd ev) -> concerned mask ev = true ->
  wget (dp_wait (d_fire d fd mask st)) w = Some (WWoken fd ev (if Z.land mask EV_ERR =? 0 then 0 else srt_socket_error st)).
Proof.
  intros Hi Hg Hc. pose proof Hi as (H & _). apply H in Hg as (l & Hl & Hin). unfold d_fire. rewrite Hl. cbn [dp_wait].
  apply fold_wput_in; [apply filter_In; auto|]. intros e1 e2 H1 H2. apply filter_In in H1 as (H1 & _). apply filter_In in H2 as (H2 & _).
  eapply dinv_unique; eassumption.
Qed.
Lemma d_fire_spares d fd mask st w f ev : dinv d -> wget (dp_wait d) w = Some (WBlocked f ev) -> (f <> fd \/ concerned mask ev = false) ->
  wget (dp_wait (d_fire d fd mask st)) w = Some (WBlocked f ev).
Proof.
  intros Hi Hg Hc. pose proof Hi as (H & _). unfold d_fire. destruct (zget (dp_conds d) fd) as [l|] eqn:El; [|exact Hg]. cbn [dp_wait].
  rewrite fold_wput_out; [exact Hg|]. intros e Hin. apply filter_In in Hin as (Hin & Hh). cbn [snd] in Hh.
  assert (wget (dp_wait d) w = Some (WBlocked fd e)) as A by (apply H; eauto). destruct Hc; congruence.
Qed.
Lemma d_fire_inv d fd mask st : dinv d -> dinv (d_fire d fd mask st).
Proof.
  intros Hi. pose proof Hi as (H & R). unfold d_fire. destruct (zget (dp_conds d) fd) as [l|] eqn:El; [|exact Hi].
  set (hit := filter (fun e => concerned mask (snd e)) l). set (rest := filter (fun e => negb (concerned mask (snd e))) l).
  set (err := if Z.land mask EV_ERR =? 0 then 0 else srt_socket_error st).
  set (cs := match rest with [] => zdel (dp_conds d) fd | _ => zput (dp_conds d) fd rest end).
  set (wt := fold_right _ _ _).
  assert (forall w f e, wget wt w = Some (WBlocked f e) <-> wget (dp_wait d) w = Some (WBlocked f e) /\ (f <> fd \/ concerned mask e = false)) as Hwt.
  { intros w f e. split.
    - intros Hg. assert ((exists e', In (w, e') hit) \/ forall e', ~ In (w, e') hit) as [(e' & Hin)|Hno].
      { clear. induction hit as [|[w' e'] h IH]; [right; intros e' []|]. destruct (Nat.eq_dec w w') as [->|Hn]; [left; exists e'; left; reflexivity|].
        destruct IH as [(x & Hx)|Hno]; [left; exists x; right; exact Hx|right]. intros x [[= -> ->]|Hx]; [contradiction|]. exact (Hno x Hx). }
      + unfold wt in Hg. rewrite (fold_wput_in fd err hit _ w e' Hin) in Hg; [discriminate|].
        intros e1 e2 H1 H2. apply filter_In in H1 as (H1 & _). apply filter_In in H2 as (H2 & _). eapply dinv_unique; eassumption.
      + unfold wt in Hg. rewrite fold_wput_out in Hg by exact Hno. split; [exact Hg|].
        destruct (Z.eq_dec f fd) as [->|]; [|left; assumption]. right. destruct (concerned mask e) eqn:Ec; [|reflexivity]. exfalso.
        apply H in Hg as (l' & Hl' & Hin). rewrite El in Hl'. injection Hl' as <-. apply (Hno e). apply filter_In. split; [exact Hin|exact Ec].
    - intros (Hg & Hc). pose proof (d_fire_spares d fd mask st w f e Hi Hg Hc) as X. unfold d_fire in X. rewrite El in X. exact X. }
  assert (forall f l', zget cs f = Some l' -> (f <> fd /\ zget (dp_conds d) f = Some l') \/ (f = fd /\ l' = rest)) as Hcs1.
  { intros f l' Hg. unfold cs in Hg. destruct rest as [|r0 rest0]; destruct (Z.eq_dec f fd) as [->|Hf].
    - rewrite zget_del_same in Hg. discriminate.
    - rewrite zget_del_other in Hg by exact Hf. auto.
    - rewrite zget_put_same in Hg. injection Hg as <-. auto.
    - rewrite zget_put_other in Hg by exact Hf. auto. }
  assert (forall f l', f <> fd -> zget (dp_conds d) f = Some l' -> zget cs f = Some l') as Hcs2.
  { intros f l' Hf Hg. unfold cs. destruct rest; [rewrite zget_del_other by exact Hf|rewrite zget_put_other by exact Hf]; exact Hg. }
  assert (forall x, In x rest -> zget cs fd = Some rest) as Hcs3.
  { intros x Hin. unfold cs. destruct rest; [destruct Hin|apply zget_put_same]. }
  split; cbn [dp_conds dp_reg dp_wait].
  - intros w f e. rewrite Hwt. split.
    + intros (Hg & Hc). apply H in Hg as (l' & Hl' & Hin). destruct (Z.eq_dec f fd) as [->|Hf].
      * rewrite El in Hl'. injection Hl' as <-. destruct Hc as [|Hc]; [contradiction|].
        assert (In (w, e) rest) as Hr by (apply filter_In; cbn [snd]; rewrite Hc; auto). exists rest. split; [eapply Hcs3; exact Hr|exact Hr].
      * exists l'. split; [apply Hcs2; assumption|exact Hin].
    + intros (l' & Hg & Hin). destruct (Hcs1 _ _ Hg) as [(Hf & Hg')|(-> & ->)].
      * split; [apply H; eauto|left; exact Hf].
      * apply filter_In in Hin as (Hin & Hc). cbn [snd] in Hc. split; [apply H; eauto|right]. destruct (concerned mask e); [discriminate|reflexivity].
  - intros w f e Hg. apply Hwt in Hg as (Hg & _). apply R in Hg. exact Hg.
Qed.
Lemma d_leave_inv d w fd ret : dinv d -> (forall f e, wget (dp_wait d) w = Some (WBlocked f e) -> f = fd) -> dinv (d_leave d w fd ret).
Proof.
  intros (H & R) Hw. unfold d_leave.
  set (cs := match zget (dp_conds d) fd with None => dp_conds d | Some l => zput (dp_conds d) fd (filter (fun e => negb (Nat.eqb (fst e) w)) l) end).
  assert (forall f, f <> fd -> zget cs f = zget (dp_conds d) f) as Hc1.
  { intros f Hf. unfold cs. destruct (zget (dp_conds d) fd) as [l|]; [apply zget_put_other; exact Hf|reflexivity]. }
  assert (forall x f e, x <> w -> ((exists l, zget cs f = Some l /\ In (x, e) l) <-> (exists l, zget (dp_conds d) f = Some l /\ In (x, e) l))) as Hc2.
  { intros x f e Hx. destruct (Z.eq_dec f fd) as [->|Hf]; [|rewrite Hc1 by exact Hf; tauto]. unfold cs. destruct (zget (dp_conds d) fd) as [l|] eqn:El.
    - rewrite zget_put_same. split; intros (l' & [= <-] & Hin).
      + apply filter_In in Hin as (Hin & _). eauto.
      + eexists. split; [reflexivity|]. apply filter_In. split; [exact Hin|]. cbn [fst]. apply Nat.eqb_neq in Hx. rewrite Hx. reflexivity.
    - rewrite El. tauto. }
  assert (forall f e l, zget cs f = Some l -> ~ In (w, e) l) as Hc3.
  { intros f e l Hg Hin. destruct (Z.eq_dec f fd) as [->|Hf].
    - unfold cs in Hg. destruct (zget (dp_conds d) fd) as [l0|] eqn:El; [|congruence]. rewrite zget_put_same in Hg. injection Hg as <-.
      apply filter_In in Hin as (_ & Hn). cbn [fst] in Hn. rewrite Nat.eqb_refl in Hn. discriminate.
    - rewrite Hc1 in Hg by exact Hf. assert (wget (dp_wait d) w = Some (WBlocked f e)) as A by (apply H; eauto). apply Hw in A. contradiction. }
  set (old := exist_evt (mkdp cs (dp_reg d) (dp_wait d)) fd).
  split; cbn [dp_conds dp_reg dp_wait].
  - intros x f e. destruct (Nat.eq_dec x w) as [->|Hx].
    + rewrite wget_put_same. split; [discriminate|]. intros (l & Hg & Hin). exfalso. exact (Hc3 _ _ _ Hg Hin).
    + rewrite wget_put_other by exact Hx. rewrite Hc2 by exact Hx. apply H.
  - intros x f e Hg. destruct (Nat.eq_dec x w) as [->|Hx]; [rewrite wget_put_same in Hg; discriminate|].
    rewrite wget_put_other in Hg by exact Hx. destruct (R _ _ _ Hg) as (He & m & Hm & Hl). split; [exact He|].
    destruct (Z.eq_dec f fd) as [->|Hf].
    + assert (Z.land old e <> 0) as Ho.
      { apply H in Hg. apply (Hc2 x fd e Hx) in Hg as (l & Hl' & Hin). unfold old, exist_evt. cbn [dp_conds]. rewrite Hl'. eapply exist_evt_has; eassumption. }
      destruct (old =? 0) eqn:E0; [apply Z.eqb_eq in E0; rewrite E0 in Ho; contradiction Ho; apply Z.land_0_l|].
      rewrite zget_put_same. eexists. split; [reflexivity|]. apply land_lor_keep; assumption.
    + destruct (old =? 0); [rewrite zget_del_other by exact Hf|rewrite zget_put_other by exact Hf]; eauto.
Qed.
Lemma evts_no_err (l : list (nat * Z)) : Forall (fun e => evbit (snd e)) l -> Z.land (fold_right (fun e a => Z.lor (snd e) a) 0 l) EV_ERR = 0.
Proof.
  induction 1 as [|[w e] l He Hl IH]; [reflexivity|]. cbn [fold_right snd] in *. rewrite Z.land_lor_distr_l, IH, Z.lor_0_r.
  destruct He as [-> | ->]; reflexivity.
Qed.
Lemma d_leave_err d x w fd ev ret : dinv d -> x <> w -> wget (dp_wait d) w = Some (WBlocked fd ev) ->
  wget (dp_wait (d_leave d x fd ret)) w = Some (WBlocked fd ev) /\
  exists m, zget (dp_reg (d_leave d x fd ret)) fd = Some m /\ Z.land m ev <> 0 /\ Z.land m EV_ERR = 0.
Proof.
  intros (H & R) Hx Hg. split; [unfold d_leave; cbn [dp_wait]; rewrite wget_put_other by congruence; exact Hg|].
  pose proof (R _ _ _ Hg) as (Hb & _). pose proof (proj1 (H _ _ _) Hg) as (l & Hl & Hin).
  unfold d_leave. rewrite Hl. cbn [dp_reg]. unfold exist_evt. cbn [dp_conds]. rewrite zget_put_same.
  set (l' := filter _ l). set (old := fold_right _ 0 l').
  assert (Z.land old ev <> 0) as Ho.
  { apply exist_evt_has with (w := w); [exact Hb|]. apply filter_In. split; [exact Hin|]. cbn [fst]. apply negb_true_iff, Nat.eqb_neq. congruence. }
  assert (Z.land old EV_ERR = 0) as He.
  { apply evts_no_err. apply Forall_forall. intros [y e] Hy. apply filter_In in Hy as (Hy & _). cbn [snd]. apply (R y fd e). apply H. eauto. }
  destruct (old =? 0) eqn:E0; [apply Z.eqb_eq in E0; rewrite E0 in Ho; contradiction Ho; apply Z.land_0_l|].
  rewrite zget_put_same. eexists. split; [reflexivity|]. split; [apply land_lor_keep; assumption|].
  rewrite Z.land_lor_distr_l, He. reflexivity.
Qed.
Lemma dinv_start : dinv dp_start.
Proof. split; cbn; [intros w fd ev; split; [discriminate|intros (l & [=] & _)]|discriminate]. Qed.
Lemma d_step_inv d op : dinv d -> dinv (d_step d op).
Proof.
  intros Hi. destruct op as [w fd ev|fd mask st|w|w]; cbn [d_step].
  - destruct (wget (dp_wait d) w) eqn:Ew; [exact Hi|]. destruct ((ev =? EV_IN) || (ev =? EV_OUT)) eqn:Eb; [|exact Hi].
    apply d_wait_inv; [exact Hi|exact Ew|]. unfold evbit. lia.
  - apply d_fire_inv. exact Hi.
  - destruct (wget (dp_wait d) w) as [[fd ev|fd ev err|ret]|] eqn:Ew; try exact Hi. apply d_leave_inv; [exact Hi|]. intros f e Hg. congruence.
  - destruct (wget (dp_wait d) w) as [[fd ev|fd ev err|ret]|] eqn:Ew; try exact Hi. apply d_leave_inv; [exact Hi|]. intros f e Hg. congruence.
Qed.
Lemma d_run_inv ops : forall d, dinv d -> dinv (d_run d ops).
Proof. induction ops as [|op ops IH]; intros d Hi; cbn [d_run fold_left]; [exact Hi|]. apply IH, d_step_inv, Hi. Qed.

(** ** The history of a wait *)
Definition blocked_since (ops : list dop) (w : nat) (fd ev : Z) : Prop :=
  exists a b, ops = a ++ DWait w fd ev :: b /\ Forall (fun op => ~ touches fd ev op) b.
Definition woken_since (ops : list dop) (w : nat) (fd ev err : Z) : Prop :=
  exists a b mask st c, ops = a ++ DWait w fd ev :: b ++ DFire fd mask st :: c /\ Forall (fun op => ~ touches fd ev op) b /\
    touches fd ev (DFire fd mask st) /\ told mask st err.
Definition returned_since (ops : list dop) (w : nat) (r : Z) : Prop :=
  exists a b fd ev c, ops = a ++ DWait w fd ev :: b ++ c /\ Forall (fun op => ~ touches fd ev op) b /\
    ((exists mask st c', c = DFire fd mask st :: c' /\ touches fd ev (DFire fd mask st) /\ told mask st r /\ In (DResume w) c') \/
     (exists c', c = DTimeout w :: c' /\ r = ERROR_SRT_SOCKET_TIMEOUT)).
Definition history (ops : list dop) (d : disp) : Prop := forall w,
  match wget (dp_wait d) w with
  | None => True
  | Some (WBlocked fd ev) => blocked_since ops w fd ev
  | Some (WWoken fd ev err) => woken_since ops w fd ev err
  | Some (WReturned r) => returned_since ops w r
  end.
Lemma touches_concerned fd ev mask st : touches fd ev (DFire fd mask st) <-> concerned mask ev = true.
Proof.
  unfold touches, concerned. rewrite orb_true_iff, !negb_true_iff, !Z.eqb_neq. tauto.
Qed.
Lemma d_fire_other d fd mask st w : dinv d -> (forall f e, wget (dp_wait d) w <> Some (WBlocked f e)) ->
  wget (dp_wait (d_fire d fd mask st)) w = wget (dp_wait d) w.
Proof.
  intros (H & _) Hn. unfold d_fire. destruct (zget (dp_conds d) fd) as [l|] eqn:Eg; [|reflexivity]. cbn [dp_wait].
  apply fold_wput_out. intros ev Hin. apply filter_In in Hin as (Hin & _). apply (Hn fd ev). apply H. eauto.
Qed.
(** Histories only get longer. *)
Lemma blocked_snoc ops w fd ev op : blocked_since ops w fd ev -> ~ touches fd ev op -> blocked_since (ops ++ [op]) w fd ev.
Proof.
  intros (a & b & -> & Hb) Hn. exists a, (b ++ [op]). split; [rewrite <- app_assoc; reflexivity|]. apply Forall_app. split; [exact Hb|constructor; [exact Hn|constructor]].
Qed.
Lemma woken_snoc ops w fd ev err op : woken_since ops w fd ev err -> woken_since (ops ++ [op]) w fd ev err.
Proof.
  intros (a & b & mask & st & c & -> & H). exists a, b, mask, st, (c ++ [op]). split; [|exact H]. rewrite <- app_assoc. cbn [app]. rewrite <- app_assoc. reflexivity.
Qed.
Lemma returned_snoc ops w r op : returned_since ops w r -> returned_since (ops ++ [op]) w r.
Proof.
  intros (a & b & fd & ev & c & -> & Hb & H). exists a, b, fd, ev, (c ++ [op]). split; [rewrite <- app_assoc; cbn [app]; rewrite <- app_assoc; reflexivity|]. split; [exact Hb|].
  destruct H as [(mask & st & c' & -> & Ht & Hr & Hi)|(c' & -> & Hr)]; [left|right].
  - exists mask, st, (c' ++ [op]). split; [reflexivity|]. split; [exact Ht|]. split; [exact Hr|]. apply in_or_app. left. exact Hi.
  - exists (c' ++ [op]). split; [reflexivity|exact Hr].
Qed.
Lemma history_same ops d op w : history ops d -> (forall fd ev, wget (dp_wait d) w = Some (WBlocked fd ev) -> ~ touches fd ev op) ->
  match wget (dp_wait d) w with
  | None => True
  | Some (WBlocked fd ev) => blocked_since (ops ++ [op]) w fd ev
  | Some (WWoken fd ev err) => woken_since (ops ++ [op]) w fd ev err
  | Some (WReturned r) => returned_since (ops ++ [op]) w r
  end.
Proof.
  intros H Hn. specialize (H w). destruct (wget (dp_wait d) w) as [[fd ev|fd ev err|r]|]; [|apply woken_snoc; exact H|apply returned_snoc; exact H|exact I].
  apply blocked_snoc; [exact H|]. apply Hn. reflexivity.
Qed.
Lemma history_step ops d op : dinv d -> history ops d -> history (ops ++ [op]) (d_step d op).
Proof.
  intros Hi H w. destruct op as [x fd ev|fd mask st|x|x]; cbn [d_step].
  - destruct (wget (dp_wait d) x) eqn:Ex; [apply history_same; [exact H|intros f e _ []]|].
    destruct ((ev =? EV_IN) || (ev =? EV_OUT)); [|apply history_same; [exact H|intros f e _ []]].
    unfold d_wait. cbn [dp_wait]. destruct (Nat.eq_dec w x) as [->|Hx].
    + rewrite wget_put_same. exists ops, []. split; [reflexivity|constructor].
    + rewrite wget_put_other by exact Hx. apply history_same; [exact H|intros f e _ []].
  - destruct (wget (dp_wait d) w) as [[f e|f e err|r]|] eqn:Ew.
    + destruct (Z.eq_dec f fd) as [->|Hf].
      * destruct (concerned mask e) eqn:Ec.
        { rewrite (d_fire_wakes d fd mask st w e Hi Ew Ec). specialize (H w). rewrite Ew in H. destruct H as (a & b & -> & Hb).
          exists a, b, mask, st, []. split; [rewrite <- app_assoc; reflexivity|]. split; [exact Hb|]. split; [apply touches_concerned; exact Ec|].
          unfold told. destruct (Z.eqb_spec (Z.land mask EV_ERR) 0); [right|left]; [auto|split; [assumption|destruct st; constructor]]. }
        { rewrite (d_fire_spares d fd mask st w fd e Hi Ew (or_intror Ec)). specialize (H w). rewrite Ew in H. apply blocked_snoc; [exact H|].
          intros Ht. apply touches_concerned in Ht. congruence. }
      * rewrite (d_fire_spares d fd mask st w f e Hi Ew (or_introl Hf)). specialize (H w). rewrite Ew in H. apply blocked_snoc; [exact H|]. intros [E _]. congruence.
    + rewrite d_fire_other by (try exact Hi; intros; congruence). apply history_same; [exact H|]. intros; congruence.
    + rewrite d_fire_other by (try exact Hi; intros; congruence). apply history_same; [exact H|]. intros; congruence.
    + rewrite d_fire_other by (try exact Hi; intros; congruence). apply history_same; [exact H|]. intros; congruence.
  - destruct (wget (dp_wait d) x) as [[f e|f e err|r]|] eqn:Ex; try (apply history_same; [exact H|intros ? ? _ []]).
    unfold d_leave. cbn [dp_wait]. destruct (Nat.eq_dec w x) as [->|Hx].
    + rewrite wget_put_same. specialize (H x). rewrite Ex in H. destruct H as (a & b & mask & st & c & -> & Hb & Ht & Hr).
      exists a, b, f, e, (DFire f mask st :: c ++ [DResume x]). split; [rewrite <- app_assoc; cbn [app]; rewrite <- app_assoc; reflexivity|]. split; [exact Hb|].
      left. exists mask, st, (c ++ [DResume x]). split; [reflexivity|]. split; [exact Ht|]. split; [exact Hr|]. apply in_or_app. right. left. reflexivity.
    + rewrite wget_put_other by exact Hx. apply history_same; [exact H|intros ? ? _ []].
  - destruct (wget (dp_wait d) x) as [[f e|f e err|r]|] eqn:Ex; try (apply history_same; [exact H|intros ? ? _ []]).
    unfold d_leave. cbn [dp_wait]. destruct (Nat.eq_dec w x) as [->|Hx].
    + rewrite wget_put_same. specialize (H x). rewrite Ex in H. destruct H as (a & b & -> & Hb).
      exists a, b, f, e, [DTimeout x]. split; [rewrite <- app_assoc; reflexivity|]. split; [exact Hb|]. right. exists []. split; reflexivity.
    + rewrite wget_put_other by exact Hx. apply history_same; [exact H|intros ? ? _ []].
Qed.
Lemma history_run ops : history ops (d_run dp_start ops).
Proof.
  induction ops as [|op ops IH] using rev_ind; [intros w; exact I|].
  unfold d_run. rewrite fold_left_app. cbn [fold_left]. apply history_step; [apply d_run_inv; apply dinv_start|exact IH].
Qed.
