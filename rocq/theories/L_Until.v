(** Proofs about the proxy with upstreams that stop before their response is
    complete, or do not say how long it is. *)
From Verif Require Import Base M_IO S_IO L_IO M_Text M_Http S_Http L_Http L_Http2 L_Http3.

Lemma proxy_start_err reason lib rq up ups client head parsed ri rest :
  is_head head -> zlen head <= MAX_HEADER -> nonempty_chunks (t_chunks up) -> t_stream up = head ++ rest ->
  lib head = (parsed, ri) -> 0 < parsed -> sk_room ups = None -> sk_room client = None ->
  let req := http_request (pq_method rq) (pq_url rq) (pq_host rq) [] (pq_headers rq) in
  let h := mkhr (ri_status ri) false (ri_cl ri) (ri_chunked ri) (ri_headers ri) in
  exists up1, t_stream up1 = rest /\ nonempty_chunks (t_chunks up1) /\ t_err up1 = t_err up /\
  proxy reason lib rq up ups client =
    match relay (S (S (length rest))) reason (hb_new (ri_chunked ri) (ri_cl ri)) up1
            (mkhr (ri_status ri) true (ri_cl ri) (ri_chunked ri) (ri_headers ri))
            (mksk (sk_out client ++ response_head reason h) None (sk_err client)) with
    | (Err c, up2, c2) => (if c =? ERROR_HTTP_RES_EOF then Ok 1 else Err c, up2, mksk (sk_out ups ++ req) None (sk_err ups), c2)
    | (Ok _, up2, c2) => (Ok 1, up2, mksk (sk_out ups ++ req) None (sk_err ups), c2)
    | (UB, up2, c2) => (UB, up2, mksk (sk_out ups ++ req) None (sk_err ups), c2)
    | (Fuel, up2, c2) => (Fuel, up2, mksk (sk_out ups ++ req) None (sk_err ups), c2)
    end.
Proof.
  intros Hh Hm Hne Hst Hlib Hp Hu Hc req h.
  destruct (read_head_ok head rest up MAX_HEADER (is_head_shape head Hh) Hne Hst Hm) as (t1 & Hr & H1 & H2 & H3).
  exists t1. split; [exact H1|]. split; [exact H2|]. split; [exact H3|].
  unfold proxy. unfold sk_write at 1. rewrite Hu, http_request_nonempty. cbn [option_map]. rewrite Hr, Hlib.
  destruct (parsed <? 0) eqn:E1; [lia|]. destruct (parsed =? 0) eqn:E2; [lia|].
  rewrite hr_header_none by exact Hc. unfold hr_init. cbn [hr_status hr_cl hr_chunked hr_headers].
  change (concat (t_chunks t1)) with (t_stream t1). rewrite H1. reflexivity.
Qed.

(** ** No usable length *)
Lemma relay_open fuel reason : forall b up h s, hb_chunked b = false -> hb_cl b < 0 -> hb_eof b = false ->
  nonempty_chunks (t_chunks up) -> hr_sent h = true -> hr_chunked h = false -> sk_room s = None ->
  zlen (t_stream up) < Z.of_nat fuel ->
  exists up2 s2, relay fuel reason b up h s = (Err (t_err up), up2, s2) /\ t_stream up2 = [] /\ sk_out s2 = sk_out s ++ t_stream up.
Proof.
  induction fuel as [|f IH]; intros b up h s Hb Hcl He Hne Hsent Hch Hroom Hf; [pose proof (zlen_nonneg (t_stream up)); lia|].
  cbn [relay]. unfold up_read, hb_read. rewrite He, Hb. destruct (0 <=? hb_cl b) eqn:E; [lia|].
  destruct (t_read_ok up 1024 Hne ltac:(lia)) as [[Hn ->]|(d & t1 & -> & Hd & Hl & Hst & Hne1 & He1)].
  - eexists _, _. split; [reflexivity|]. unfold t_stream. rewrite Hn. cbn. rewrite app_nil_r. auto.
  - rewrite hr_write_none by assumption. rewrite Hsent, Hch. cbn [app piece].
    rewrite Hst, zlen_app in Hf. pose proof (zlen_pos_ne d Hd).
    edestruct (IH (mkhb false (hb_cl b) false (hb_nread b + zlen d) (hb_size b) (hb_left b)) t1) as (up2 & s2 & -> & A & B);
      try reflexivity; try assumption; [lia|].
    exists up2, s2. rewrite He1. split; [reflexivity|]. split; [exact A|]. rewrite B, Hst. cbn [sk_out]. rewrite app_assoc. reflexivity.
Qed.

Lemma response_cl_open h : hr_chunked h = false -> hr_cl h < 0 ->
  values_of (str "Content-Length") (rsp_fields h) = values_of (str "Content-Length") (hr_headers h).
Proof.
  intros Hc Hl. unfold rsp_fields. rewrite Hc. destruct (0 <=? hr_cl h) eqn:E; [lia|]. rewrite !values_of_app.
  assert (values_of (str "Content-Length") (if existsb (fun kv => eqb_list (fst kv) (str "Server")) (hr_headers h) then []
    else [(str "Server", str "sps")]) = []) as -> by (destruct (existsb _ _); reflexivity).
  rewrite app_nil_r, values_filter; [reflexivity|]. intros f Hf. cbn [negb andb] in Hf. rewrite andb_false_r in Hf. discriminate.
Qed.

(** ** A length that is not reached *)
Lemma relay_short fuel reason : forall b up h s, hb_chunked b = false -> hb_eof b = false -> 0 <= hb_nread b ->
  hb_nread b + zlen (t_stream up) < hb_cl b < 2 ^ 31 ->
  nonempty_chunks (t_chunks up) -> hr_sent h = true -> hr_chunked h = false -> sk_room s = None ->
  zlen (t_stream up) < Z.of_nat fuel ->
  exists up2 s2, relay fuel reason b up h s = (Err (t_err up), up2, s2) /\ t_stream up2 = [] /\ sk_out s2 = sk_out s ++ t_stream up.
Proof.
  induction fuel as [|f IH]; intros b up h s Hb He Hn0 Hlt Hne Hsent Hch Hroom Hf; [pose proof (zlen_nonneg (t_stream up)); lia|].
  pose proof (zlen_nonneg (t_stream up)) as Hz.
  cbn [relay]. unfold up_read, hb_read. rewrite He, Hb. destruct (0 <=? hb_cl b) eqn:E; [|lia].
  assert (E1 : u64 (hb_cl b - hb_nread b) = hb_cl b - hb_nread b) by (unfold u64; apply Z.mod_small; lia). rewrite E1.
  destruct (t_read_ok up (Z.min (hb_cl b - hb_nread b) 1024) Hne ltac:(lia)) as [[Hn ->]|(d & t1 & -> & Hd & Hl & Hst & Hne1 & He1)].
  - eexists _, _. split; [reflexivity|]. unfold t_stream. rewrite Hn. cbn. rewrite app_nil_r. auto.
  - rewrite hr_write_none by assumption. rewrite Hsent, Hch. cbn [app piece].
    rewrite Hst, zlen_app in Hf, Hlt. pose proof (zlen_pos_ne d Hd). pose proof (zlen_nonneg (t_stream t1)).
    assert (E2 : u64 (hb_cl b) = hb_cl b) by (unfold u64; apply Z.mod_small; lia). rewrite E2.
    destruct (hb_cl b <=? hb_nread b + zlen d) eqn:E3; [lia|].
    edestruct (IH (mkhb false (hb_cl b) false (hb_nread b + zlen d) (hb_size b) (hb_left b)) t1) as (up2 & s2 & -> & A & B);
      cbn [hb_chunked hb_eof hb_nread hb_cl]; try reflexivity; try assumption; try lia.
    exists up2, s2. rewrite He1. split; [reflexivity|]. split; [exact A|]. rewrite B, Hst. cbn [sk_out]. rewrite app_assoc. reflexivity.
Qed.

(** ** Chunks *)
Lemma size_line_any fuel : forall t acc, nonempty_chunks (t_chunks t) -> zlen acc < 33 -> 33 - zlen acc < Z.of_nat fuel ->
  (exists l t1, size_line fuel t acc = (Ok l, t1) /\ 1 <= zlen l <= 33 /\ zlen (t_stream t1) < zlen (t_stream t) /\ nonempty_chunks (t_chunks t1) /\ t_err t1 = t_err t) \/
  (exists t1, size_line fuel t acc = (Err (t_err t), t1)).
Proof.
  induction fuel as [|f IH]; intros t acc Hne Ha Hf; [lia|]. cbn [size_line].
  pose proof (t_read1 t Hne) as Hr. destruct (t_stream t) as [|c s] eqn:Es.
  - rewrite Hr. right. eexists. reflexivity.
  - destruct Hr as (t1 & -> & Hs1 & Hne1 & He1). pose proof (zlen_nonneg acc).
    assert (Hz : zlen (acc ++ [c]) = zlen acc + 1) by (rewrite zlen_app; reflexivity).
    destruct ((c =? LF) || (33 <=? zlen (acc ++ [c]))) eqn:E.
    + left. exists (acc ++ [c]), t1. split; [reflexivity|]. rewrite Hs1, zlen_cons, Hz. repeat split; try assumption; lia.
    + apply orb_false_iff in E as [_ E]. destruct (IH t1 (acc ++ [c]) Hne1) as [(l & t2 & -> & A & B & C & D)|(t2 & ->)]; try lia.
      * left. exists l, t2. split; [reflexivity|]. rewrite Hs1 in B. rewrite zlen_cons, D. repeat split; try assumption; lia.
      * right. exists t2. rewrite He1. reflexivity.
Qed.

Lemma strtoul16_range s : 0 <= strtoul16 s < 2 ^ 64.
Proof.
  destruct (size_of_line_any (s ++ [13; 10])) as [(n & E & H)|(e & E)]; [rewrite zlen_app; pose proof (zlen_nonneg s); change (zlen [13; 10]) with 2; lia| |].
  - rewrite size_of_line_gen in E. injection E as ->. exact H.
  - rewrite size_of_line_gen in E. discriminate E.
Qed.
Definition not_end (c : Z) : Prop := c <> ERROR_HTTP_RES_EOF.
Lemma chunk_len_any b t : nonempty_chunks (t_chunks t) -> not_end (t_err t) ->
  (exists n t1, read_chunk_len b t = (Ok tt, mkhb (hb_chunked b) (hb_cl b) (hb_eof b) (hb_nread b) n n, t1) /\ 0 <= n < 2 ^ 64 /\
     zlen (t_stream t1) < zlen (t_stream t) /\ nonempty_chunks (t_chunks t1) /\ t_err t1 = t_err t) \/
  (exists c t1, read_chunk_len b t = (Err c, b, t1) /\ not_end c).
Proof.
  intros Hne Hx. unfold read_chunk_len.
  destruct (size_line_any 34 t [] Hne) as [(l & t1 & -> & A & B & C & D)|(t1 & ->)]; [cbn; lia|change (zlen (@nil Z)) with 0; change (Z.of_nat 34) with 34; lia| |].
  - unfold size_of_line.
    destruct (nthz l (zlen l - 1)) as [x|] eqn:E1; [|apply nthz_none in E1; lia]. cbn [of_opt bind].
    destruct (negb (x =? LF)); [right; eexists _, _; split; [reflexivity|discriminate]|].
    destruct (zlen l <? 2) eqn:E2; [right; eexists _, _; split; [reflexivity|discriminate]|].
    destruct (nthz l (zlen l - 2)) as [y|] eqn:E3; [|apply nthz_none in E3; lia]. cbn [of_opt bind].
    destruct (negb (y =? CR)); [right; eexists _, _; split; [reflexivity|discriminate]|].
    left. eexists _, t1. split; [reflexivity|]. split; [apply strtoul16_range|]. auto.
  - right. eexists _, _. split; [reflexivity|exact Hx].
Qed.

Lemma chunk_tail_any b t d : nonempty_chunks (t_chunks t) -> not_end (t_err t) ->
  (exists t1, chunk_tail b t d = (Ok d, if hb_size b =? 0 then hb_set_eof b else b, t1) /\ zlen (t_stream t1) <= zlen (t_stream t) /\
     nonempty_chunks (t_chunks t1) /\ t_err t1 = t_err t) \/
  (exists c b1 t1, chunk_tail b t d = (Err c, b1, t1) /\ not_end c).
Proof.
  intros Hne Hx. unfold chunk_tail. destruct (hb_left b =? 0).
  - destruct (read_fully_ok t 2 Hne ltac:(lia)) as [A B]. destruct (Z_le_gt_dec 2 (zlen (t_stream t))) as [H|H].
    + destruct (A H) as (t1 & -> & S1 & N1 & E1). destruct (eqb_list _ crlf).
      * left. exists t1. rewrite S1, zlen_drop by lia. repeat split; try assumption. lia.
      * right. eexists _, _, _. split; [reflexivity|discriminate].
    + destruct (B ltac:(lia)) as (t1 & -> & _). right. eexists _, _, _. split; [reflexivity|exact Hx].
  - left. exists t. repeat split; try assumption. lia.
Qed.

Definition mid (b : hbody) : Prop :=
  hb_chunked b = true /\ hb_eof b = false /\ 0 <= hb_left b < 2 ^ 64 /\ (hb_left b <> 0 -> hb_size b <> 0).
Lemma up_data_any b t : mid b -> hb_left b <> 0 \/ hb_size b = 0 -> nonempty_chunks (t_chunks t) -> not_end (t_err t) ->
  (exists d b1 t1, up_data b t 1024 = (Ok d, b1, t1) /\ zlen (t_stream t1) + zlen d <= zlen (t_stream t) /\ nonempty_chunks (t_chunks t1) /\ t_err t1 = t_err t /\
     ((d <> [] /\ zlen d <= 1024 /\ mid b1) \/ (d = [] /\ hb_eof b1 = true /\ hb_left b = 0))) \/
  (exists c b1 t1, up_data b t 1024 = (Err c, b1, t1) /\ not_end c).
Proof.
  intros (M1 & M2 & M3 & M4) Hls Hne Hx. unfold up_data.
  destruct (Z.min (hb_left b) 1024 =? 0) eqn:E0.
  - assert (L0 : hb_left b = 0) by lia. destruct Hls as [?|S0]; [lia|].
    set (b1 := hb_set_left b _).
    destruct (chunk_tail_any b1 t [] Hne Hx) as [(t1 & -> & A & B & C)|(c & b2 & t1 & -> & A)].
    + left. assert (hb_size b1 =? 0 = true) as -> by (unfold b1; cbn [hb_set_left hb_size]; lia).
      eexists _, _, t1. split; [reflexivity|]. change (zlen (@nil Z)) with 0. split; [lia|]. split; [exact B|]. split; [exact C|]. right. split; [reflexivity|]. split; [reflexivity|exact L0].
    + right. eexists _, _, _. split; [reflexivity|exact A].
  - assert (L1 : hb_left b <> 0) by lia. specialize (M4 L1). set (n := Z.min (hb_left b) 1024) in *.
    assert (Hn : 1 <= n <= 1024) by lia. set (b1 := hb_set_left b (u64 (hb_left b - n))).
    destruct (read_fully_ok t n Hne ltac:(lia)) as [A B]. destruct (Z_le_gt_dec n (zlen (t_stream t))) as [H|H].
    + destruct (A H) as (t1 & -> & S1 & N1 & E1).
      destruct (chunk_tail_any b1 t1 (take n (t_stream t)) N1 ltac:(rewrite E1; exact Hx)) as [(t2 & -> & A1 & B1 & C1)|(c & b2 & t2 & -> & A1)].
      * left. assert (hb_size b1 =? 0 = false) as -> by (unfold b1; cbn [hb_set_left hb_size]; lia).
        assert (Hz : zlen (take n (t_stream t)) = n) by (rewrite zlen_take by lia; lia).
        eexists _, _, t2. split; [reflexivity|]. rewrite S1, zlen_drop in A1 by lia. split; [lia|]. split; [exact B1|]. split; [congruence|].
        left. split; [intros X; rewrite X in Hz; change (zlen (@nil Z)) with 0 in Hz; lia|]. split; [lia|].
        assert (u64 (hb_left b - n) = hb_left b - n) by (unfold u64; apply Z.mod_small; lia).
        unfold mid, b1. cbn [hb_set_left hb_chunked hb_eof hb_left hb_size]. repeat split; try assumption; try lia.
      * right. eexists _, _, _. split; [reflexivity|exact A1].
    + destruct (B ltac:(lia)) as (t1 & -> & _). right. eexists _, _, _. split; [reflexivity|exact Hx].
Qed.

Lemma read_ch_any b t : mid b -> nonempty_chunks (t_chunks t) -> not_end (t_err t) ->
  (exists d b1 t1, hb_read up_data b t 1024 = (Ok d, b1, t1) /\ zlen (t_stream t1) < zlen (t_stream t) /\ nonempty_chunks (t_chunks t1) /\ t_err t1 = t_err t /\
     ((d <> [] /\ zlen d <= 1024 /\ mid b1) \/ (d = [] /\ hb_eof b1 = true))) \/
  (exists c b1 t1, hb_read up_data b t 1024 = (Err c, b1, t1) /\ not_end c).
Proof.
  intros Hm Hne Hx. pose proof Hm as (M1 & M2 & M3 & M4). unfold hb_read. rewrite M2, M1. unfold read_chunked.
  destruct (hb_left b =? 0) eqn:E0.
  - destruct (chunk_len_any b t Hne Hx) as [(n & t1 & -> & A & B & C & D)|(c & t1 & -> & A)].
    + rewrite <- D in Hx. set (b1 := mkhb _ _ _ _ _ _).
      assert (Hm1 : mid b1) by (unfold mid, b1; cbn [hb_chunked hb_eof hb_left hb_size]; repeat split; try assumption; lia).
      destruct (up_data_any b1 t1 Hm1 ltac:(unfold b1; cbn [hb_left hb_size]; lia) C Hx) as [(d & b2 & t2 & -> & P1 & P2 & P3 & P4)|(c & b2 & t2 & -> & P)].
      * left. exists d, b2, t2. pose proof (zlen_nonneg d). split; [reflexivity|]. split; [lia|]. split; [exact P2|]. split; [congruence|]. destruct P4 as [Q|(Q & Q2 & _)]; auto.
      * right. exists c, b2, t2. auto.
    + right. exists c, b, t1. auto.
  - assert (Hl : hb_left b <> 0) by lia.
    destruct (up_data_any b t Hm (or_introl Hl) Hne Hx) as [(d & b2 & t2 & -> & P1 & P2 & P3 & P4)|(c & b2 & t2 & E & P)].
    + left. exists d, b2, t2. destruct P4 as [(Q & Q2)|(_ & _ & Q)]; [|contradiction]. pose proof (zlen_pos_ne d Q).
      split; [reflexivity|]. split; [lia|]. auto.
    + right. exists c, b2, t2. auto.
Qed.

(** What has been sent of a chunked body: whole chunks, then perhaps the end. *)
Lemma relay_any fuel reason : forall b up h s, mid b -> nonempty_chunks (t_chunks up) -> not_end (t_err up) ->
  hr_sent h = true -> hr_chunked h = true -> sk_room s = None -> zlen (t_stream up) < Z.of_nat fuel ->
  exists c up2 s2 ds, relay (S fuel) reason b up h s = (Err c, up2, s2) /\ Forall (fun d => d <> [] /\ zlen d < 2 ^ 64) ds /\
    ((not_end c /\ sk_out s2 = sk_out s ++ flat_map enc ds) \/
     (c = ERROR_HTTP_RES_EOF /\ sk_out s2 = sk_out s ++ flat_map enc ds ++ enc [])).
Proof.
  induction fuel as [|f IH]; intros b up h s Hm Hne Hx Hsent Hch Hroom Hf; [pose proof (zlen_nonneg (t_stream up)); lia|].
  cbn [relay]. unfold up_read.
  destruct (read_ch_any b up Hm Hne Hx) as [(d & b1 & t1 & -> & A & B & C & D)|(c & b1 & t1 & -> & A)].
  - rewrite hr_write_none by assumption. rewrite Hsent, Hch. cbn [app piece].
    destruct D as [(Dn & Dl & Dm)|(-> & De)].
    + edestruct (IH b1 t1) as (c & up2 & s2 & ds & E & F & G); [exact Dm|exact B|rewrite C; exact Hx| | | |lia|];
        [| | |cbn [relay] in E; unfold up_read in E; rewrite E]; try reflexivity.
      exists c, up2, s2, (d :: ds). split; [reflexivity|]. split; [constructor; [split; [exact Dn|lia]|exact F]|].
      cbn [flat_map sk_out] in *. rewrite <- !app_assoc in G. rewrite <- !app_assoc. exact G.
    + cbn [relay]. unfold up_read, hb_read. rewrite De. eexists _, _, _, []. split; [reflexivity|]. split; [constructor|].
      right. split; [reflexivity|]. cbn [flat_map app sk_out]. reflexivity.
  - exists c, t1, s, []. split; [reflexivity|]. split; [constructor|]. left. split; [exact A|]. cbn. rewrite app_nil_r. reflexivity.
Qed.

Lemma chunked_more s body rest x : chunked s body rest -> chunked (s ++ x) body (rest ++ x).
Proof.
  induction 1 as [sz rest Hsz|sz d s body rest Hsz Hd Hck IH].
  - rewrite <- !app_assoc. constructor. exact Hsz.
  - rewrite <- !app_assoc. constructor; assumption.
Qed.
Lemma open_chunks ds body rest : Forall (fun d => d <> [] /\ zlen d < 2 ^ 64) ds -> ~ chunked (flat_map enc ds) body rest.
Proof.
  intros F H. apply (chunked_more _ _ _ (enc [])) in H.
  assert (K : chunked (flat_map enc ds ++ enc []) (concat ds ++ []) []).
  { apply enc_chunked; [exact F|]. rewrite <- (app_nil_r (enc [])). apply enc_nil_chunked. }
  destruct (chunked_unique _ _ _ K _ _ H) as [_ E]. apply app_eq_nil in E as [_ E]. vm_compute in E. discriminate E.
Qed.
