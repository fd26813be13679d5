(** Every packet of a program table. *)
From Verif Require Import Base M_Bits S_Bits L_Bits M_Fields L_Align S_Fields L_Pack M_Packet M_IO S_IO L_IO M_Cache L_Cache
  M_H264 M_AAC L_Rtp M_Ts S_Ts L_Ts L_Ts2 L_Ts3 L_Ts4 L_Ts5 S_TsMap.
Ltac Zify.zify_post_hook ::= Z.to_euclidean_division_equations.

Lemma be_eq k l v : bytes l -> zlen l = Z.of_nat k -> bev l = v -> l = be k v.
Proof. intros Hb Hl <-. replace k with (length l) by (unfold zlen in Hl; lia). symmetry. apply be_bev, Hb. Qed.
Lemma bev_lt l k : bytes l -> zlen l = k -> 0 <= bev l < 256 ^ k.
Proof. intros Hb <-. apply bev_range, Hb. Qed.
Lemma five_bytes l : bytes l -> zlen l = 5 -> let v := bev l in
  let fs := [(v / 2 ^ 32, 8); (v / 2 ^ 29 mod 8, 3); (v / 2 ^ 16 mod 2 ^ 13, 13); (v / 2 ^ 12 mod 16, 4); (v mod 2 ^ 12, 12)] in
  l = be 5 (pack fs) /\ fields_fit fs = true.
Proof.
  intros Hb Hl v fs. pose proof (bev_lt l 5 Hb Hl) as R. fold v in R. change (256 ^ 5) with 1099511627776 in R. subst fs. cbv beta. split.
  - apply be_eq; [exact Hb|exact Hl|]. fold v. unfold pack. cbn [fold_left fst snd].
    change (2 ^ 32) with 4294967296. change (2 ^ 29) with 536870912. change (2 ^ 16) with 65536. change (2 ^ 13) with 8192. change (2 ^ 12) with 4096.
    change (2 ^ 8) with 256. change (2 ^ 3) with 8. change (2 ^ 4) with 16. clearbody v. clear - R. lia.
  - unfold fields_fit. cbn [forallb fst snd].
    change (2 ^ 32) with 4294967296. change (2 ^ 29) with 536870912. change (2 ^ 16) with 65536. change (2 ^ 13) with 8192. change (2 ^ 12) with 4096.
    change (2 ^ 8) with 256. change (2 ^ 3) with 8. change (2 ^ 4) with 16. clearbody v. clear - R.
    repeat (apply andb_true_intro; split); try reflexivity; first [apply Z.leb_le|apply Z.ltb_lt]; lia.
Qed.
Lemma four_bytes l : bytes l -> zlen l = 4 -> let v := bev l in
  let fs := [(v / 2 ^ 16, 16); (v / 2 ^ 13 mod 8, 3); (v mod 2 ^ 13, 13)] in
  l = be 4 (pack fs) /\ fields_fit fs = true.
Proof.
  intros Hb Hl v fs. pose proof (bev_lt l 4 Hb Hl) as R. fold v in R. change (256 ^ 4) with 4294967296 in R. subst fs. cbv beta. split.
  - apply be_eq; [exact Hb|exact Hl|]. fold v. unfold pack. cbn [fold_left fst snd].
    change (2 ^ 16) with 65536. change (2 ^ 13) with 8192. change (2 ^ 3) with 8. clearbody v. clear - R. lia.
  - unfold fields_fit. cbn [forallb fst snd].
    change (2 ^ 16) with 65536. change (2 ^ 13) with 8192. change (2 ^ 3) with 8. clearbody v. clear - R.
    repeat (apply andb_true_intro; split); try reflexivity; first [apply Z.leb_le|apply Z.ltb_lt]; lia.
Qed.
Lemma four_head l : bytes l -> zlen l = 4 -> let v := bev l in
  let fs := [(v / 2 ^ 29, 3); (v / 2 ^ 16 mod 2 ^ 13, 13); (v / 2 ^ 12 mod 16, 4); (v / 2 ^ 10 mod 4, 2); (v mod 2 ^ 10, 10)] in
  l = be 4 (pack fs) /\ fields_fit fs = true.
Proof.
  intros Hb Hl v fs. pose proof (bev_lt l 4 Hb Hl) as R. fold v in R. change (256 ^ 4) with 4294967296 in R. subst fs. cbv beta. split.
  - apply be_eq; [exact Hb|exact Hl|]. fold v. unfold pack. cbn [fold_left fst snd].
    change (2 ^ 29) with 536870912. change (2 ^ 16) with 65536. change (2 ^ 13) with 8192. change (2 ^ 12) with 4096. change (2 ^ 10) with 1024.
    change (2 ^ 2) with 4. change (2 ^ 3) with 8. change (2 ^ 4) with 16. clearbody v. clear - R. lia.
  - unfold fields_fit. cbn [forallb fst snd].
    change (2 ^ 29) with 536870912. change (2 ^ 16) with 65536. change (2 ^ 13) with 8192. change (2 ^ 12) with 4096. change (2 ^ 10) with 1024.
    change (2 ^ 2) with 4. change (2 ^ 3) with 8. change (2 ^ 4) with 16. clearbody v. clear - R.
    repeat (apply andb_true_intro; split); try reflexivity; first [apply Z.leb_le|apply Z.ltb_lt]; lia.
Qed.
Lemma eight_bytes l : bytes l -> zlen l = 8 -> let v := bev l in
  let h := mksh (v / 2 ^ 56) (v / 2 ^ 55 mod 2) (v / 2 ^ 54 mod 2) (v / 2 ^ 52 mod 4) (v / 2 ^ 40 mod 2 ^ 12) (v / 2 ^ 24 mod 2 ^ 16)
    (v / 2 ^ 22 mod 4) (v / 2 ^ 17 mod 32) (v / 2 ^ 16 mod 2) (v / 2 ^ 8 mod 256) (v mod 256) in
  l = sh_bytes h /\ fields_fit (sh_fields h) = true.
Proof.
  intros Hb Hl v h. pose proof (bev_lt l 8 Hb Hl) as R. fold v in R. change (256 ^ 8) with 18446744073709551616 in R. subst h. split.
  - apply be_eq; [exact Hb|exact Hl|]. fold v. unfold pack, sh_fields. cbn [fold_left fst snd h_tid h_ind h_zero h_res h_len h_ext h_res2 h_ver h_cur h_num h_last].
    change (2 ^ 56) with 72057594037927936. change (2 ^ 55) with 36028797018963968. change (2 ^ 54) with 18014398509481984. change (2 ^ 52) with 4503599627370496.
    change (2 ^ 40) with 1099511627776. change (2 ^ 24) with 16777216. change (2 ^ 22) with 4194304. change (2 ^ 17) with 131072.
    change (2 ^ 16) with 65536. change (2 ^ 12) with 4096. change (2 ^ 8) with 256. change (2 ^ 5) with 32. change (2 ^ 2) with 4. change (2 ^ 1) with 2. clearbody v. clear - R. lia.
  - unfold fields_fit, sh_fields. cbn [forallb fst snd h_tid h_ind h_zero h_res h_len h_ext h_res2 h_ver h_cur h_num h_last].
    change (2 ^ 56) with 72057594037927936. change (2 ^ 55) with 36028797018963968. change (2 ^ 54) with 18014398509481984. change (2 ^ 52) with 4503599627370496.
    change (2 ^ 40) with 1099511627776. change (2 ^ 24) with 16777216. change (2 ^ 22) with 4194304. change (2 ^ 17) with 131072.
    change (2 ^ 16) with 65536. change (2 ^ 12) with 4096. change (2 ^ 8) with 256. change (2 ^ 5) with 32. change (2 ^ 2) with 4. change (2 ^ 1) with 2. clearbody v. clear - R.
    repeat (apply andb_true_intro; split); try reflexivity; first [apply Z.leb_le|apply Z.ltb_lt]; lia.
Qed.

Lemma split_take k (l : list Z) : l = take k l ++ drop k l.
Proof. unfold take, drop. symmetry. apply firstn_skipn. Qed.
Lemma al_short_fields buf c rest ws k : al buf c rest -> Forall (fun w => 0 <= w) ws -> zsum ws = 8 * k -> zlen rest < k -> read_fields c ws = UB.
Proof.
  intros Ha Hw Hs Hl. pose proof (al_fields_adv _ _ _ ws k Ha Hw Hs) as A. unfold adv in A. destruct (Z.leb_spec k (zlen rest)); [lia|].
  destruct (read_fields c ws) as [(v & c1)| | |]; cbn [bind] in A; congruence.
Qed.
Lemma get_n buf c n rest : al buf c rest -> zlen buf <= 188 -> 0 <= n < 4096 ->
  if zlen rest <? n then (if 0 <? n then let? r := bc_get c n in Ok (snd r) else Ok c) = Err ERROR_IO_NOT_ENOUGH
  else exists c', (if 0 <? n then let? r := bc_get c n in Ok (snd r) else Ok c) = Ok c' /\ al buf c' (drop n rest).
Proof.
  intros Ha Hb Hn. destruct (Z.ltb_spec (zlen rest) n) as [H|H].
  - pose proof (zlen_nonneg rest). destruct (Z.ltb_spec 0 n); [|lia]. unfold bc_get. rewrite (al_acquire_no _ _ _ n Ha) by lia. reflexivity.
  - rewrite (split_take n rest) in Ha. pose proof (get_pos _ _ _ _ Ha Hb) as R. rewrite zlen_take in R by lia. rewrite Z.min_l in R by lia. exact R.
Qed.
(** The part of an outcome the bit reader reports. *)
Definition told (x : tbl_out) : res (list (Z * Z)) := match x with Listed es => Ok es | Refused => Err ERROR_IO_NOT_ENOUGH | Overrun => UB end.
Lemma map_loop_every buf : forall fuel g c left rest, al buf c rest -> zlen buf <= 188 -> zlen rest <= Z.of_nat g -> left <= Z.of_nat fuel ->
  exists c', pmt_loop fuel c left = (told (fst (map_entries g left rest)), c') /\
    (fst (map_entries g left rest) <> Overrun -> al buf c' (snd (map_entries g left rest))).
Proof.
  induction fuel as [|fuel IH]; intros g c left rest Ha Hb Hg Hf.
  { exists c. destruct g; cbn [map_entries pmt_loop]; (destruct (Z.leb_spec left 0); [|lia]); split; try reflexivity; intros _; exact Ha. }
  cbn [pmt_loop]. pose proof (zlen_nonneg rest). destruct (Z.leb_spec left 0) as [H1|H1].
  { exists c. destruct g; cbn [map_entries]; (destruct (Z.leb_spec left 0); [|lia]); split; try reflexivity; intros _; exact Ha. }
  destruct (Z.ltb_spec (zlen rest) 5) as [H5|H5].
  { exists c. rewrite (al_short_fields _ _ _ [8; 3; 13; 4; 12] 5 Ha); [|repeat constructor; lia|reflexivity|exact H5].
    destruct g; cbn [map_entries]; (destruct (Z.leb_spec left 0); [lia|]); [split; [reflexivity|intros K; exfalso; apply K; reflexivity]|].
    destruct (Z.ltb_spec (zlen rest) 5); [|lia]. split; [reflexivity|intros K; exfalso; apply K; reflexivity]. }
  destruct g as [|g]; [lia|]. cbn [map_entries]. destruct (Z.leb_spec left 0); [lia|]. destruct (Z.ltb_spec (zlen rest) 5); [lia|].
  pose proof (al_bytes _ _ _ Ha) as Hby. set (v := bev (take 5 rest)).
  assert (H5b : bytes (take 5 rest)) by (apply bytes_take; exact Hby).
  assert (H5l : zlen (take 5 rest) = 5) by (rewrite zlen_take by lia; lia).
  destruct (five_bytes (take 5 rest) H5b H5l) as (E & Fit). fold v in E, Fit.
  rewrite (split_take 5 rest) in Ha. rewrite E in Ha. destruct (al_packed _ _ _ _ _ Ha) as (c1 & E1 & Ha1); [reflexivity|exact Fit|reflexivity|].
  cbn [map fst snd] in E1. rewrite E1. unfold fld; cbn [nth]. set (n := v mod 2 ^ 12). assert (Hn : 0 <= n < 4096) by (apply Z.mod_pos_bound; lia).
  pose proof (get_n _ _ n _ Ha1 Hb Hn) as G. assert (Hdl : zlen (drop 5 rest) = zlen rest - 5) by (rewrite zlen_drop by lia; lia). rewrite Hdl in G.
  destruct (Z.ltb_spec (zlen rest - 5) n) as [Hs|Hs].
  { rewrite G. exists c1. split; [reflexivity|]. intros _. exact Ha1. }
  destruct G as (c2 & E2 & Ha2). rewrite E2. replace (drop n (drop 5 rest)) with (drop (5 + n) rest) in Ha2 by (rewrite drop_drop by lia; f_equal; lia).
  destruct (IH g c2 (left - (5 + n)) (drop (5 + n) rest) Ha2 Hb) as (c3 & E3 & Ha3); [rewrite zlen_drop by lia; lia|lia|].
  replace (left - 5 - n) with (left - (5 + n)) by lia. rewrite E3. destruct (map_entries g (left - (5 + n)) (drop (5 + n) rest)) as [[es| |] r]; cbn [fst snd told] in *.
  - exists c3. split; [reflexivity|]. intros _. apply Ha3. discriminate.
  - exists c3. split; [reflexivity|]. exact Ha3.
  - exists c3. split; [reflexivity|]. exact Ha3.
Qed.
Lemma assoc_loop_every buf : forall fuel g c left rest, al buf c rest -> zlen rest <= Z.of_nat g -> left <= Z.of_nat fuel ->
  match assoc_entries g left rest with
  | (Listed es, r) => exists c', pat_loop fuel c left = Ok (map snd es, c') /\ al buf c' r
  | (Refused, _) => False
  | (Overrun, _) => pat_loop fuel c left = UB
  end.
Proof.
  induction fuel as [|fuel IH]; intros g c left rest Ha Hg Hf.
  { destruct g; cbn [assoc_entries pat_loop]; (destruct (Z.leb_spec left 0); [|lia]); exists c; (split; [reflexivity|exact Ha]). }
  cbn [pat_loop]. pose proof (zlen_nonneg rest). destruct (Z.leb_spec left 0) as [H1|H1].
  { destruct g; cbn [assoc_entries]; (destruct (Z.leb_spec left 0); [|lia]); exists c; (split; [reflexivity|exact Ha]). }
  destruct (Z.ltb_spec (zlen rest) 4) as [H4|H4].
  { rewrite (al_short_fields _ _ _ [16; 3; 13] 4 Ha); [|repeat constructor; lia|reflexivity|exact H4].
    destruct g; cbn [assoc_entries]; (destruct (Z.leb_spec left 0); [lia|]); [reflexivity|]. destruct (Z.ltb_spec (zlen rest) 4); [|lia]. reflexivity. }
  destruct g as [|g]; [lia|]. cbn [assoc_entries]. destruct (Z.leb_spec left 0); [lia|]. destruct (Z.ltb_spec (zlen rest) 4); [lia|].
  pose proof (al_bytes _ _ _ Ha) as Hby. set (v := bev (take 4 rest)).
  assert (H4b : bytes (take 4 rest)) by (apply bytes_take; exact Hby).
  assert (H4l : zlen (take 4 rest) = 4) by (rewrite zlen_take by lia; lia).
  destruct (four_bytes (take 4 rest) H4b H4l) as (E & Fit). fold v in E, Fit.
  rewrite (split_take 4 rest) in Ha. rewrite E in Ha. destruct (al_packed _ _ _ _ _ Ha) as (c1 & E1 & Ha1); [reflexivity|exact Fit|reflexivity|].
  cbn [map fst snd] in E1. rewrite E1. cbn [bind fst snd]. unfold fld; cbn [nth].
  specialize (IH g c1 (left - 4) (drop 4 rest) Ha1 ltac:(rewrite zlen_drop by lia; lia) ltac:(lia)).
  destruct (assoc_entries g (left - 4) (drop 4 rest)) as [[es| |] r].
  - destruct IH as (c2 & E2 & Ha2). rewrite E2. cbn [bind fst snd map]. exists c2. split; [reflexivity|exact Ha2].
  - exact IH.
  - rewrite IH. reflexivity.
Qed.

(** What an outcome makes of the registered identifiers. *)
Definition reg_map (f : progs) (x : tbl_out) : progs := match x with Listed es => fold_left pmt_add es f | _ => f end.
Definition reg_assoc (f : progs) (x : tbl_out) : progs := match x with Listed es => fold_left (fun f pid => add_program f pid PPmt) (map snd es) f | _ => f end.
Definition ends (x : tbl_out) : res unit := match x with Listed _ => Ok tt | Refused => Err ERROR_IO_NOT_ENOUGH | Overrun => UB end.

Lemma pmt_every buf c len rest f : al buf c rest -> zlen buf <= 188 -> 0 <= len < 4096 ->
  let x := map_table len rest in
  exists f' c' r, pmt_decode len f c = (f', c', r) /\ r = ends (fst x) /\ (r <> UB -> f' = reg_map f (fst x) /\ al buf c' (snd x)).
Proof.
  intros Ha Hb Hlen x. subst x. unfold map_table, pmt_decode. pose proof (zlen_nonneg rest).
  destruct (Z.ltb_spec (zlen rest) 4) as [H4|H4].
  { rewrite (al_acquire_no _ _ _ 4 Ha) by lia. cbn [bind]. eexists _, _, _. split; [reflexivity|]. split; [reflexivity|]. intros _. split; [reflexivity|exact Ha]. }
  rewrite (al_acquire_ok _ _ _ 4 Ha) by lia. cbn [bind]. pose proof (al_bytes _ _ _ Ha) as Hby. set (v := bev (take 4 rest)).
  assert (H4b : bytes (take 4 rest)) by (apply bytes_take; exact Hby).
  assert (H4l : zlen (take 4 rest) = 4) by (rewrite zlen_take by lia; lia).
  destruct (four_head (take 4 rest) H4b H4l) as (E & Fit). fold v in E, Fit.
  rewrite (split_take 4 rest) in Ha. rewrite E in Ha. destruct (al_packed _ _ _ _ _ Ha) as (c1 & E1 & Ha1); [reflexivity|exact Fit|reflexivity|].
  cbn [map fst snd] in E1. rewrite E1. unfold fld; cbn [nth]. cbv zeta. set (n := v mod 2 ^ 10). assert (Hn : 0 <= n < 1024) by (apply Z.mod_pos_bound; lia).
  pose proof (get_n _ _ n _ Ha1 Hb ltac:(lia)) as G. assert (Hdl : zlen (drop 4 rest) = zlen rest - 4) by (rewrite zlen_drop by lia; lia). rewrite Hdl in G.
  destruct (Z.ltb_spec (zlen rest - 4) n) as [Hs|Hs].
  { rewrite G. eexists _, _, _. split; [reflexivity|]. split; [reflexivity|]. intros _. split; [reflexivity|exact Ha1]. }
  destruct G as (c2 & E2 & Ha2). rewrite E2. replace (drop n (drop 4 rest)) with (drop (4 + n) rest) in Ha2 by (rewrite drop_drop by lia; f_equal; lia).
  replace (len - 5 - 4 - n - 4) with (len - 13 - n) by lia.
  destruct (map_loop_every buf (Z.to_nat (len - 13 - n)) (length rest) c2 (len - 13 - n) (drop (4 + n) rest) Ha2 Hb) as (c3 & E3 & Ha3); [rewrite zlen_drop by lia; unfold zlen in *; lia|lia|].
  rewrite E3. destruct (map_entries (length rest) (len - 13 - n) (drop (4 + n) rest)) as [[es| |] r]; cbn [fst snd told ends reg_map recast] in *;
    (eexists _, _, _; split; [reflexivity|]; split; [reflexivity|]); intros K; try congruence; (split; [reflexivity|apply Ha3; discriminate]).
Qed.
Lemma pat_every buf c len rest f : al buf c rest -> zlen buf <= 188 -> 0 <= len < 4096 ->
  let x := assoc_table len rest in
  exists f' c' r, pat_decode len f c = (f', c', r) /\ r = ends (fst x) /\ (r <> UB -> f' = reg_assoc f (fst x) /\ al buf c' (snd x)).
Proof.
  intros Ha Hb Hlen x. subst x. unfold assoc_table, pat_decode. pose proof (zlen_nonneg rest). replace (len - 5 - 4) with (len - 9) by lia. cbv zeta.
  destruct (Z.ltb_spec (zlen rest) (len - 9)) as [H4|H4].
  { destruct (Z.ltb_spec 0 (len - 9)); [|lia]. rewrite (al_acquire_no _ _ _ (len - 9) Ha) by lia. cbn [bind]. eexists _, _, _. split; [reflexivity|]. split; [reflexivity|]. intros _. split; [reflexivity|exact Ha]. }
  pose proof (assoc_loop_every buf (Z.to_nat (len - 9)) (length rest) c (len - 9) rest Ha ltac:(unfold zlen; lia) ltac:(lia)) as L.
  destruct (Z.ltb_spec 0 (len - 9)) as [H0|H0].
  - rewrite (al_acquire_ok _ _ _ (len - 9) Ha) by lia. cbn [bind].
    destruct (assoc_entries (length rest) (len - 9) rest) as [[es| |] r]; [|destruct L|].
    + destruct L as (c' & -> & Ha'). eexists _, _, _. split; [reflexivity|]. split; [reflexivity|]. intros _. split; [reflexivity|exact Ha'].
    + rewrite L. eexists _, _, _. split; [reflexivity|]. split; [reflexivity|]. intros K. exfalso. apply K. reflexivity.
  - destruct (length rest) as [|g]; cbn [assoc_entries]; (destruct (Z.leb_spec (len - 9) 0); [|lia]); (eexists _, _, _; split; [reflexivity|]; split; [reflexivity|]; intros _; split; [reflexivity|exact Ha]).
Qed.
Lemma crc_ends buf c2 (x : tbl_out * list Z) (f f' : progs) r (g : progs -> tbl_out -> progs) :
  r = ends (fst x) -> (r <> UB -> f' = g f (fst x) /\ al buf c2 (snd x)) -> exists f2,
  match r with
  | UB => (f', UB)
  | Fuel => (f', Fuel)
  | _ => match read_bits c2 32 with Ok _ => (f', r) | e => (f', recast e) end
  end = (f2, ends (with_crc x)) /\ (with_crc x <> Overrun -> f2 = g f (with_crc x)).
Proof.
  intros Hr Ha. destruct x as [o l]. unfold with_crc. cbn [fst snd] in *.
  destruct o as [es| |]; cbn [ends] in Hr; subst r.
  - destruct (Ha ltac:(discriminate)) as (-> & Hal). pose proof (crc_read _ _ _ Hal) as R. destruct (Z.ltb_spec (zlen l) 4), (Z.leb_spec 4 (zlen l)); try lia.
    + rewrite R. eexists. split; [reflexivity|]. intros K. exfalso. apply K. reflexivity.
    + destruct R as (y & ->). eexists. split; [reflexivity|]. reflexivity.
  - destruct (Ha ltac:(discriminate)) as (-> & Hal). pose proof (crc_read _ _ _ Hal) as R. destruct (Z.ltb_spec (zlen l) 4), (Z.leb_spec 4 (zlen l)); try lia.
    + rewrite R. eexists. split; [reflexivity|]. intros K. exfalso. apply K. reflexivity.
    + destruct R as (y & ->). eexists. split; [reflexivity|]. reflexivity.
  - exists f'. split; [destruct (zlen l <? 4); reflexivity|]. intros K. destruct (zlen l <? 4); exfalso; apply K; reflexivity.
Qed.
Lemma psi_short tbl buf c start body f : al buf c body -> zlen body < 8 -> psi_decode tbl start f c = (f, Err ERROR_IO_NOT_ENOUGH).
Proof. intros Ha H. pose proof (zlen_nonneg body). unfold psi_decode. rewrite (al_acquire_no _ _ _ 8 Ha) by lia. reflexivity. Qed.
Lemma psi_edge tbl buf c start body f : al buf c body -> 0 <= start <= 1 -> 8 <= zlen body -> zlen (drop start body) < 8 -> psi_decode tbl start f c = (f, UB).
Proof.
  intros Ha Hs H Hd. rewrite zlen_drop in Hd by lia. assert (start = 1) as -> by lia. assert (zlen body = 8) by lia. unfold psi_decode.
  rewrite (al_acquire_ok _ _ _ 8 Ha) by lia. cbn [bind]. change (1 =? 1) with true. cbv iota.
  destruct (al_bits _ _ _ 8 1 Ha) as (c0 & E0 & Ha0); [lia|lia|lia|]. rewrite E0. cbn [bind snd].
  rewrite (al_short_fields _ _ _ [8; 1; 1; 2; 12; 16; 2; 5; 1; 8; 8] 8 Ha0); [reflexivity|repeat constructor; lia|reflexivity|]. rewrite zlen_drop by lia. lia.
Qed.
Lemma psi_head tbl buf c start body f : al buf c body -> zlen buf <= 188 -> 0 <= start <= 1 -> 8 <= zlen (drop start body) ->
  let l := drop start body in let len := bev (take 8 l) / 2 ^ 40 mod 2 ^ 12 in
  exists c1, al buf c1 (drop 8 l) /\
    psi_decode tbl start f c =
    let '(f', c2, r) := match tbl with PPat => pat_decode len f c1 | PPmt => pmt_decode len f c1 | _ => sdt_decode f c1 end in
      match r with
      | UB => (f', UB)
      | Fuel => (f', Fuel)
      | _ => match read_bits c2 32 with Ok _ => (f', r) | e => (f', recast e) end
      end.
Proof.
  intros Ha Hb Hs H8 l len. pose proof (al_bytes _ _ _ Ha) as Hby. assert (Hl : bytes l) by (apply bytes_drop; exact Hby). fold l in H8.
  assert (H8b : bytes (take 8 l)) by (apply bytes_take; exact Hl). assert (H8l : zlen (take 8 l) = 8) by (rewrite zlen_take by lia; lia).
  destruct (eight_bytes (take 8 l) H8b H8l) as (E & Fit).
  match type of E with _ = sh_bytes ?h => set (hh := h) in * end.
  assert (zlen (take start body) = start). { pose proof H8 as K. unfold l in K. rewrite zlen_drop in K by lia. pose proof (zlen_nonneg body). rewrite zlen_take by lia. lia. }
  rewrite (split_take start body) in Ha. fold l in Ha. rewrite (split_take 8 l), E in Ha.
  destruct (psi_any tbl _ _ _ _ _ f Ha Hb Fit ltac:(lia)) as (c1 & Ha1 & P). exists c1. split; [exact Ha1|]. rewrite H in P. exact P.
Qed.
Lemma len_12 v : 0 <= v mod 2 ^ 12 < 4096.
Proof. apply Z.mod_pos_bound. lia. Qed.
Lemma psi_map_every buf c start body f : al buf c body -> zlen buf <= 188 -> 0 <= start <= 1 ->
  let x := table_of map_table start body in
  exists f2, psi_decode PPmt start f c = (f2, ends x) /\ (x <> Overrun -> f2 = reg_map f x).
Proof.
  intros Ha Hb Hs x. subst x. unfold table_of. destruct (Z.ltb_spec (zlen body) 8) as [H|H].
  { rewrite (psi_short _ _ _ _ _ _ Ha H). eexists. split; [reflexivity|]. reflexivity. }
  cbv zeta. destruct (Z.ltb_spec (zlen (drop start body)) 8) as [H8|H8].
  { rewrite (psi_edge _ _ _ _ _ _ Ha Hs H H8). eexists. split; [reflexivity|]. intros K. exfalso. apply K. reflexivity. }
  destruct (psi_head PPmt _ _ _ _ f Ha Hb Hs H8) as (c1 & Ha1 & ->).
  destruct (pmt_every _ _ _ _ f Ha1 Hb (len_12 (bev (take 8 (drop start body)) / 2 ^ 40))) as (f' & c' & r & -> & Hr & Hal).
  exact (crc_ends buf c' _ f f' r reg_map Hr Hal).
Qed.
Lemma psi_assoc_every buf c start body f : al buf c body -> zlen buf <= 188 -> 0 <= start <= 1 ->
  let x := table_of assoc_table start body in
  exists f2, psi_decode PPat start f c = (f2, ends x) /\ (x <> Overrun -> f2 = reg_assoc f x).
Proof.
  intros Ha Hb Hs x. subst x. unfold table_of. destruct (Z.ltb_spec (zlen body) 8) as [H|H].
  { rewrite (psi_short _ _ _ _ _ _ Ha H). eexists. split; [reflexivity|]. reflexivity. }
  cbv zeta. destruct (Z.ltb_spec (zlen (drop start body)) 8) as [H8|H8].
  { rewrite (psi_edge _ _ _ _ _ _ Ha Hs H H8). eexists. split; [reflexivity|]. intros K. exfalso. apply K. reflexivity. }
  destruct (psi_head PPat _ _ _ _ f Ha Hb Hs H8) as (c1 & Ha1 & ->).
  destruct (pat_every _ _ _ _ f Ha1 Hb (len_12 (bev (take 8 (drop start body)) / 2 ^ 40))) as (f' & c' & r & -> & Hr & Hal).
  exact (crc_ends buf c' _ f f' r reg_assoc Hr Hal).
Qed.
