(** Proofs about the response writer, the upstream request, the proxy relay and
    the handler chain. *)
From Verif Require Import Base M_IO S_IO L_IO M_Text M_Http S_Http L_Http L_Http2.

(** ** Unambiguity of chunked bodies *)
Lemma plain_cut a : forall b x y, plain a -> plain b -> a ++ 13 :: x = b ++ 13 :: y -> a = b /\ x = y.
Proof.
  induction a as [|c a IH]; intros b x y Ha Hb H; destruct b as [|c' b]; cbn [app] in H.
  - injection H as H. auto.
  - injection H as Hc _. inversion_clear Hb. lia.
  - injection H as Hc _. inversion_clear Ha. lia.
  - injection H as -> H. inversion_clear Ha. inversion_clear Hb.
    destruct (IH b x y) as [-> ->]; auto.
Qed.

Lemma app_len_inv {A} (a b x y : list A) : zlen a = zlen b -> a ++ x = b ++ y -> a = b /\ x = y.
Proof.
  intros Hl H. split.
  - apply (f_equal (take (zlen a))) in H. rewrite take_app_exact in H by reflexivity.
    rewrite take_app_exact in H by exact Hl. exact H.
  - apply (f_equal (drop (zlen a))) in H. rewrite drop_app_exact in H by reflexivity.
    rewrite drop_app_exact in H by exact Hl. exact H.
Qed.

Lemma chunked_unique s body rest : chunked s body rest ->
  forall body' rest', chunked s body' rest' -> body' = body /\ rest' = rest.
Proof.
  induction 1 as [sz rest Hsz|sz d s body rest Hsz Hd Hck IH]; intros body' rest' H'.
  - inversion H' as [sz' r Hsz' Eq1 Eq2 Eq3|sz' d' s' b0 r Hsz' Hdn' Hck' Eq1 Eq2 Eq3]; subst.
    + destruct (size_text_plain _ _ Hsz) as (P1 & _). destruct (size_text_plain _ _ Hsz') as (P2 & _).
      apply plain_cut in Eq1; [|assumption|assumption]. destruct Eq1 as [_ Eq1]. injection Eq1 as ->. auto.
    + destruct (size_text_plain _ _ Hsz) as (P1 & _). destruct (size_text_plain _ _ Hsz') as (P2 & _).
      apply plain_cut in Eq1; [|assumption|assumption]. destruct Eq1 as [-> _].
      apply size_text_strtoul in Hsz. apply size_text_strtoul in Hsz'. rewrite Hsz in Hsz'.
      symmetry in Hsz'. apply zlen_0_nil in Hsz'. congruence.
  - inversion H' as [sz' r Hsz' Eq1 Eq2 Eq3|sz' d' s' b0 r Hsz' Hdn' Hck' Eq1 Eq2 Eq3]; subst.
    + destruct (size_text_plain _ _ Hsz) as (P1 & _). destruct (size_text_plain _ _ Hsz') as (P2 & _).
      apply plain_cut in Eq1; [|assumption|assumption]. destruct Eq1 as [-> _].
      apply size_text_strtoul in Hsz. apply size_text_strtoul in Hsz'. rewrite Hsz in Hsz'.
      apply zlen_0_nil in Hsz'. congruence.
    + destruct (size_text_plain _ _ Hsz) as (P1 & _). destruct (size_text_plain _ _ Hsz') as (P2 & _).
      apply plain_cut in Eq1; [|assumption|assumption]. destruct Eq1 as [-> Eq1].
      apply size_text_strtoul in Hsz. apply size_text_strtoul in Hsz'. rewrite Hsz in Hsz'.
      injection Eq1 as Eq1. apply app_len_inv in Eq1; [|symmetry; assumption]. destruct Eq1 as [-> Eq1].
      injection Eq1 as ->. destruct (IH _ _ Hck') as [-> ->]. auto.
Qed.

(** ** The writer *)
Definition enc (d : list Z) : list Z := hexs (zlen d) ++ crlf ++ d ++ crlf.
Definition piece (ch : bool) (d : list Z) : list Z := if ch then enc d else d.

Lemma hexs_nonempty n : 0 <= n -> hexs n <> [].
Proof. intros H. destruct (hexs_ok n H) as [Hx _]. destruct (hex_number_chars _ _ Hx). assumption. Qed.

Lemma zlen_pos_ne {A} (l : list A) : l <> [] -> 0 < zlen l.
Proof. intros H. destruct l; [congruence|]. rewrite zlen_cons. pose proof (zlen_nonneg l). lia. Qed.

Lemma sk_write_none s d : sk_room s = None -> d <> [] ->
  sk_write s d = (Ok tt, mksk (sk_out s ++ d) None (sk_err s)).
Proof.
  intros Hr Hd. unfold sk_write. rewrite Hr. apply zlen_pos_ne in Hd.
  destruct (zlen d =? 0) eqn:E; [lia|reflexivity].
Qed.

Lemma hr_body_none h s d : sk_room s = None ->
  hr_body h s d = (Ok tt, mksk (sk_out s ++ piece (hr_chunked h) d) None (sk_err s)).
Proof.
  intros Hr. unfold hr_body, piece. pose proof (zlen_nonneg d) as Hn.
  assert (Hc : crlf <> []) by discriminate.
  destruct (hr_chunked h).
  - rewrite sk_write_none; [|assumption|intros Hx; apply app_eq_nil in Hx as [Hx _]; revert Hx; apply hexs_nonempty; lia].
    destruct (0 <? zlen d) eqn:E.
    + rewrite sk_write_none; [|reflexivity|intros ->; discriminate]. cbn [sk_out sk_err].
      rewrite sk_write_none; [|reflexivity|assumption]. cbn [sk_out sk_err]. unfold enc. rewrite !app_assoc. reflexivity.
    + rewrite sk_write_none; [|reflexivity|assumption]. cbn [sk_out sk_err].
      assert (d = []) as -> by (apply zlen_0_nil; lia). unfold enc. rewrite !app_assoc, app_nil_r. reflexivity.
  - destruct (0 <? zlen d) eqn:E.
    + rewrite sk_write_none; [|assumption|intros ->; discriminate]. reflexivity.
    + assert (d = []) as -> by (apply zlen_0_nil; lia). rewrite app_nil_r. destruct s; cbn in *. subst. reflexivity.
Qed.

Lemma response_head_ne reason h : response_head reason h <> [].
Proof. unfold response_head. cbn [str app]. discriminate. Qed.

Lemma hr_header_none reason h s : sk_room s = None ->
  hr_write_header reason h s =
    (Ok tt, mkhr (hr_status h) true (hr_cl h) (hr_chunked h) (hr_headers h),
     mksk (sk_out s ++ response_head reason h) None (sk_err s)).
Proof.
  intros Hr. unfold hr_write_header. rewrite sk_write_none; [reflexivity|assumption|apply response_head_ne].
Qed.

Lemma hr_write_none reason h s d : sk_room s = None ->
  hr_write reason h s d =
    (Ok tt, mkhr (hr_status h) true (hr_cl h) (hr_chunked h) (hr_headers h),
     mksk (sk_out s ++ (if hr_sent h then [] else response_head reason h) ++ piece (hr_chunked h) d) None (sk_err s)).
Proof.
  intros Hr. unfold hr_write. destruct (hr_sent h) eqn:E.
  - rewrite hr_body_none by assumption. destruct h; cbn in *; subst. reflexivity.
  - rewrite hr_header_none by assumption. rewrite hr_body_none by reflexivity.
    cbn [sk_out sk_err hr_chunked]. rewrite <- app_assoc. reflexivity.
Qed.

Lemma hr_writes_none reason : forall ds h s, sk_room s = None -> ds <> [] ->
  hr_writes reason h s ds =
    (Ok tt, mkhr (hr_status h) true (hr_cl h) (hr_chunked h) (hr_headers h),
     mksk (sk_out s ++ (if hr_sent h then [] else response_head reason h) ++ flat_map (piece (hr_chunked h)) ds)
          None (sk_err s)).
Proof.
  induction ds as [|d ds IH]; intros h s Hr Hne; [congruence|].
  cbn [hr_writes flat_map]. rewrite hr_write_none by assumption.
  destruct ds as [|d2 ds].
  - cbn [hr_writes flat_map]. rewrite app_nil_r. reflexivity.
  - rewrite IH; [|reflexivity|discriminate]. cbn [hr_status hr_sent hr_cl hr_chunked hr_headers sk_out sk_err].
    rewrite <- !app_assoc. reflexivity.
Qed.

(** Failures: what was sent is a prefix of what should have been sent. *)
Lemma sk_write_any s d : exists r s1, sk_write s d = (r, s1) /\
  ((r = Ok tt /\ sk_out s1 = sk_out s ++ d) \/ (exists e, r = Err e) /\ s1 = s).
Proof.
  unfold sk_write. destruct (sk_room s) as [[|n]|].
  - eexists _, _. split; [reflexivity|]. right. eauto.
  - destruct (zlen d =? 0); eexists _, _; (split; [reflexivity|]); [right|left]; eauto.
  - destruct (zlen d =? 0); eexists _, _; (split; [reflexivity|]); [right|left]; eauto.
Qed.

Lemma hr_body_any h s d : exists r s1 p q, hr_body h s d = (r, s1) /\
  sk_out s1 = sk_out s ++ p /\ p ++ q = piece (hr_chunked h) d /\
  ((r = Ok tt /\ q = []) \/ exists e, r = Err e).
Proof.
  unfold hr_body, piece. destruct (hr_chunked h).
  - destruct (sk_write_any s (hexs (zlen d) ++ crlf)) as (r & s1 & -> & [[-> H1]|[[e ->] ->]]).
    2:{ exists (Err e), s, [], (enc d). rewrite app_nil_r. repeat split; eauto. }
    destruct (0 <? zlen d) eqn:E.
    + destruct (sk_write_any s1 d) as (r2 & s2 & -> & [[-> H2]|[[e ->] ->]]).
      2:{ exists (Err e), s1, (hexs (zlen d) ++ crlf), (d ++ crlf).
          split; [reflexivity|]. split; [exact H1|]. split; [unfold enc; rewrite <- app_assoc; reflexivity|eauto]. }
      destruct (sk_write_any s2 crlf) as (r3 & s3 & -> & [[-> H3]|[[e ->] ->]]).
      * exists (Ok tt), s3, (enc d), []. split; [reflexivity|].
        split; [rewrite H3, H2, H1; unfold enc; rewrite !app_assoc; reflexivity|].
        split; [apply app_nil_r|left; auto].
      * exists (Err e), s2, (hexs (zlen d) ++ crlf ++ d), crlf. split; [reflexivity|].
        split; [rewrite H2, H1, !app_assoc; reflexivity|].
        split; [unfold enc; rewrite <- !app_assoc; reflexivity|eauto].
    + pose proof (zlen_nonneg d). assert (d = []) as -> by (apply zlen_0_nil; lia).
      destruct (sk_write_any s1 crlf) as (r3 & s3 & -> & [[-> H3]|[[e ->] ->]]).
      * exists (Ok tt), s3, (enc []), []. split; [reflexivity|].
        split; [rewrite H3, H1; unfold enc; rewrite !app_assoc, app_nil_r; reflexivity|].
        split; [apply app_nil_r|left; auto].
      * exists (Err e), s1, (hexs (zlen (@nil Z)) ++ crlf), crlf. split; [reflexivity|].
        split; [exact H1|]. split; [unfold enc; rewrite <- !app_assoc; reflexivity|eauto].
  - destruct (0 <? zlen d) eqn:E.
    + destruct (sk_write_any s d) as (r & s1 & -> & [[-> H1]|[[e ->] ->]]).
      * exists (Ok tt), s1, d, []. rewrite app_nil_r. repeat split; auto.
      * exists (Err e), s, [], d. rewrite app_nil_r. repeat split; eauto.
    + pose proof (zlen_nonneg d). assert (d = []) as -> by (apply zlen_0_nil; lia).
      exists (Ok tt), s, [], []. rewrite app_nil_r. repeat split; auto.
Qed.

Lemma hr_writes_any reason : forall ds h s, hr_sent h = true -> exists r h1 s1 p q,
  hr_writes reason h s ds = (r, h1, s1) /\ sk_out s1 = sk_out s ++ p /\
  p ++ q = flat_map (piece (hr_chunked h)) ds /\ ((r = Ok tt /\ q = []) \/ exists e, r = Err e).
Proof.
  induction ds as [|d ds IH]; intros h s Hs.
  - exists (Ok tt), h, s, [], []. rewrite app_nil_r. cbn. repeat split; auto.
  - cbn [hr_writes flat_map]. unfold hr_write. rewrite Hs.
    destruct (hr_body_any h s d) as (r & s1 & p & q & -> & H1 & H2 & [[-> ->]|[e ->]]).
    + rewrite app_nil_r in H2. destruct (IH h s1 Hs) as (r2 & h2 & s2 & p2 & q2 & -> & G1 & G2 & G3).
      exists r2, h2, s2, (p ++ p2), q2. split; [reflexivity|].
      split; [rewrite G1, H1, app_assoc; reflexivity|]. split; [rewrite <- app_assoc, G2, H2; reflexivity|exact G3].
    + exists (Err e), h, s1, p, (q ++ flat_map (piece (hr_chunked h)) ds). split; [reflexivity|].
      split; [exact H1|]. split; [rewrite app_assoc, H2; reflexivity|eauto].
Qed.

(** Encoded writes form a chunked body. *)
Lemma enc_chunked ds : Forall (fun d => d <> [] /\ zlen d < 2 ^ 64) ds -> forall s body rest,
  chunked s body rest -> chunked (flat_map enc ds ++ s) (concat ds ++ body) rest.
Proof.
  induction 1 as [|d ds [Hd Hl] _ IH]; intros s body rest Hs; [exact Hs|].
  cbn [flat_map concat]. unfold enc at 1. rewrite <- !app_assoc.
  apply ch_chunk; [|exact Hd|apply IH; exact Hs].
  apply hexs_size_text. pose proof (zlen_nonneg d). lia.
Qed.

Lemma enc_nil_chunked rest : chunked (enc [] ++ rest) [] rest.
Proof.
  unfold enc. rewrite <- !app_assoc. apply (ch_last (hexs (zlen (@nil Z))) rest).
  apply hexs_size_text. change (zlen (@nil Z)) with 0. lia.
Qed.

(** ** The relay *)
Lemma relay_chunked fuel reason : forall b up h s body rest,
  ch_inv b up body rest -> hr_sent h = true -> hr_chunked h = true -> sk_room s = None ->
  zlen body + 2 <= Z.of_nat fuel ->
  exists up2 s2 out, relay fuel reason b up h s = (Err ERROR_HTTP_RES_EOF, up2, s2) /\
    t_stream up2 = rest /\ sk_out s2 = sk_out s ++ out /\ forall r, chunked (out ++ r) body r.
Proof.
  induction fuel as [|f IH]; intros b up h s body rest Hinv Hsent Hch Hroom Hf;
    [pose proof (zlen_nonneg body); lia|].
  cbn [relay]. unfold up_read.
  destruct (hb_read_chunked up_data b up 1024 body rest up_data_ok Hinv ltac:(lia))
    as (x & b1 & up1 & -> & Hx). rewrite hr_write_none by assumption. rewrite Hsent, Hch. cbn [app piece].
  destruct Hx as [(-> & -> & He & Hs & Hne)|(Hxn & Hxl & body' & -> & Hinv')].
  - destruct f as [|f']; [change (zlen (@nil Z)) with 0 in Hf; lia|]. cbn [relay]. unfold up_read, hb_read.
    rewrite He. eexists _, _, (enc []). split; [reflexivity|]. split; [exact Hs|]. split; [reflexivity|].
    intros r. apply enc_nil_chunked.
  - rewrite zlen_app in Hf. pose proof (zlen_pos_ne x Hxn).
    edestruct (IH b1 up1) as (up2 & s2 & out & -> & Hs2 & Ho & Hc);
      [exact Hinv'| | | |lia|]; [reflexivity|reflexivity|reflexivity|].
    exists up2, s2, (enc x ++ out). split; [reflexivity|]. split; [exact Hs2|].
    split; [rewrite Ho; cbn [sk_out]; rewrite app_assoc; reflexivity|].
    intros r. pose proof (enc_chunked [x]) as Hec. cbn [flat_map concat] in Hec. rewrite !app_nil_r in Hec.
    rewrite <- app_assoc. apply Hec; [|apply Hc].
    constructor; [|constructor]. split; [exact Hxn|exact Hxl].
Qed.

Lemma relay_fixed fuel reason n : forall b up h s body rest,
  fx_inv n b up body rest -> hr_sent h = true -> hr_chunked h = false -> sk_room s = None ->
  zlen body + 1 <= Z.of_nat fuel ->
  exists up2 s2, relay fuel reason b up h s = (Err ERROR_HTTP_RES_EOF, up2, s2) /\
    t_stream up2 = rest /\ sk_out s2 = sk_out s ++ body.
Proof.
  induction fuel as [|f IH]; intros b up h s body rest Hinv Hsent Hch Hroom Hf;
    [pose proof (zlen_nonneg body); lia|].
  cbn [relay]. unfold up_read.
  destruct (hb_read_fixed up_data n b up 1024 body rest Hinv ltac:(lia))
    as (x & b1 & up1 & body' & -> & Hxn & _ & -> & Hx). rewrite hr_write_none by assumption.
  rewrite Hsent, Hch. cbn [app piece]. pose proof (zlen_pos_ne x Hxn). rewrite zlen_app in Hf.
  destruct Hx as [(-> & He & Hs)|Hinv'].
  - change (zlen (@nil Z)) with 0 in Hf. destruct f as [|f']; [lia|]. cbn [relay]. unfold up_read, hb_read.
    rewrite He. eexists _, _. split; [reflexivity|]. split; [exact Hs|]. rewrite app_nil_r. reflexivity.
  - edestruct (IH b1 up1) as (up2 & s2 & -> & Hs2 & Ho);
      [exact Hinv'| | | |lia|]; [reflexivity|reflexivity|reflexivity|].
    exists up2, s2. split; [reflexivity|]. split; [exact Hs2|].
    rewrite Ho. cbn [sk_out]. rewrite app_assoc. reflexivity.
Qed.

(** ** Reading a request text back *)
Lemma cut_crlf_plain a r : plain a -> cut_crlf (a ++ 13 :: 10 :: r) = Some (a, r).
Proof.
  induction 1 as [|c a [H1 H2] Ha IH]; [reflexivity|]. cbn [app cut_crlf].
  destruct (a ++ 13 :: 10 :: r) as [|c' l'] eqn:E; [destruct a; discriminate|].
  destruct ((c =? 13) && (c' =? 10)) eqn:E2; [lia|]. rewrite IH. reflexivity.
Qed.

Lemma head_lines_ok fuel : forall ls r, Forall (fun l => l <> [] /\ plain l) ls -> (length ls < fuel)%nat ->
  head_lines fuel (crlf_lines ls ++ [13; 10] ++ r) = Some (ls, r).
Proof.
  induction fuel as [|f IH]; intros ls r Hf Hl; [lia|]. destruct ls as [|l ls].
  - cbn [crlf_lines flat_map app head_lines]. change (cut_crlf (13 :: 10 :: r)) with (Some (@nil Z, r)). reflexivity.
  - inversion_clear Hf as [|? ? [Hne Hp] Hf']. cbn [crlf_lines flat_map head_lines]. fold (crlf_lines ls).
    rewrite <- !app_assoc. cbn [app]. rewrite cut_crlf_plain by assumption.
    destruct l as [|c l]; [congruence|]. cbn [length] in Hl.
    specialize (IH ls r Hf' ltac:(lia)). cbn [app] in IH. rewrite IH. reflexivity.
Qed.

Lemma cut_at_ok c a r : ~ In c a -> cut_at c (a ++ c :: r) = Some (a, r).
Proof.
  induction a as [|x a IH]; intros H; cbn [app cut_at].
  - rewrite Z.eqb_refl. reflexivity.
  - destruct (x =? c) eqn:E; [exfalso; apply H; left; lia|]. rewrite IH; [reflexivity|]. intros Hx; apply H; right; exact Hx.
Qed.

Definition fline (f : list Z * list Z) : list Z := fst f ++ 58 :: 32 :: snd f.

Lemma field_of_ok f : field_wf f -> field_of (fline f) = Some f.
Proof.
  intros (_ & _ & H). unfold field_of, fline. rewrite cut_at_ok by assumption. destruct f. reflexivity.
Qed.

Lemma fields_of_ok fs : Forall field_wf fs -> fields_of (map fline fs) = Some fs.
Proof.
  induction 1 as [|f fs Hf _ IH]; [reflexivity|]. cbn [map fields_of]. rewrite field_of_ok, IH by assumption. reflexivity.
Qed.

Lemma fline_ok f : field_wf f -> fline f <> [] /\ plain (fline f).
Proof.
  intros (H1 & H2 & _). unfold fline. split; [destruct (fst f); discriminate|].
  unfold plain in *. apply Forall_app. split; [exact H1|]. constructor; [lia|]. constructor; [lia|exact H2].
Qed.

Lemma crlf_lines_app a b : crlf_lines (a ++ b) = crlf_lines a ++ crlf_lines b.
Proof. unfold crlf_lines. apply flat_map_app. Qed.

Lemma header_lines_ok (p : kv -> bool) hs :
  flat_map (fun h => if p h then [] else header_line h) hs = crlf_lines (map fline (filter (fun h => negb (p h)) hs)).
Proof.
  induction hs as [|h hs IH]; [reflexivity|]. cbn [flat_map filter]. destruct (p h); cbn [negb]; [exact IH|].
  cbn [map crlf_lines flat_map]. fold (crlf_lines (map fline (filter (fun h => negb (p h)) hs))).
  rewrite IH. unfold header_line, fline at 2, crlf, CR, LF. change (str ": ") with [58; 32].
  rewrite <- !app_assoc. reflexivity.
Qed.

Lemma dec_number_chars ds n : dec_number ds n -> Forall (fun c => 48 <= c <= 57) ds.
Proof.
  induction 1; [constructor; [assumption|constructor]|]. apply Forall_app. split; [assumption|].
  constructor; [assumption|constructor].
Qed.

Definition not_host (h : kv) : bool := negb (eqb_list (fst h) (str "Host")).

Lemma read_request_ok m u host data hs :
  plain m -> ~ In 32 m -> plain u -> ~ In 32 u -> plain host -> Forall field_wf hs ->
  read_request (http_request m u host data hs) =
    Some (m, u, str "HTTP/1.1",
          (str "Host", host) :: filter not_host hs ++
            [(str "Accept", str "*/"); (str "Content-Length", decs (zlen data))], []).
Proof.
  intros Hm Hms Hu Hus Hh Hf.
  set (fs := (str "Host", host) :: filter not_host hs ++
            [(str "Accept", str "*/"); (str "Content-Length", decs (zlen data))]).
  assert (Hwf : Forall field_wf fs).
  { unfold fs. constructor.
    - split; [repeat (constructor; [cbn; lia|]); constructor|]. split; [exact Hh|]. cbn. lia.
    - apply Forall_app. split.
      + rewrite Forall_forall in *. intros x Hx. apply filter_In in Hx as [Hx _]. auto.
      + constructor; [|constructor; [|constructor]].
        * split; [repeat (constructor; [cbn; lia|]); constructor|].
          split; [repeat (constructor; [cbn; lia|]); constructor|]. cbn. lia.
        * split; [repeat (constructor; [cbn; lia|]); constructor|]. split; [|cbn; lia].
          pose proof (dec_number_chars _ _ (decs_ok (zlen data) (zlen_nonneg data))) as Hc.
          cbn [snd]. eapply Forall_impl; [|exact Hc]. cbn. lia. }
  set (rl := m ++ 32 :: u ++ 32 :: str "HTTP/1.1").
  assert (Hrl : rl <> [] /\ plain rl).
  { unfold rl. split; [destruct m; discriminate|]. unfold plain in *. apply Forall_app. split; [exact Hm|].
    constructor; [lia|]. apply Forall_app. split; [exact Hu|]. repeat (constructor; [cbn; lia|]). constructor. }
  assert (Htext : http_request m u host data hs = crlf_lines (rl :: map fline fs) ++ [13; 10]).
  { unfold http_request. rewrite header_lines_ok. fold not_host. unfold fs.
    cbn [map]. rewrite map_app.
    change (rl :: fline (str "Host", host) :: map fline (filter not_host hs) ++
              map fline [(str "Accept", str "*/"); (str "Content-Length", decs (zlen data))])
      with ([rl; fline (str "Host", host)] ++ map fline (filter not_host hs) ++
              map fline [(str "Accept", str "*/"); (str "Content-Length", decs (zlen data))]).
    rewrite !crlf_lines_app. unfold crlf_lines at 2 4. cbn [flat_map map fline fst snd]. unfold rl.
    unfold crlf, CR, LF. change (str " ") with [32]. change (str " HTTP/1.1") with (32 :: str "HTTP/1.1").
    change (str "Host: ") with (str "Host" ++ [58; 32]).
    change (str "Accept: */") with (str "Accept" ++ [58; 32] ++ str "*/").
    change (str "Content-Length: ") with (str "Content-Length" ++ [58; 32]).
    rewrite <- !app_assoc. cbn [app]. rewrite <- !app_assoc. cbn [app]. rewrite <- ?app_assoc. cbn [app]. reflexivity. }
  unfold read_request. rewrite Htext.
  assert (Hfuel : (length (rl :: map fline fs) < S (length (crlf_lines (rl :: map fline fs) ++ [13; 10]%Z)))%nat).
  { clear. generalize (rl :: map fline fs). intros ls. rewrite app_length.
    enough (length ls <= length (crlf_lines ls))%nat by lia.
    induction ls as [|l ls IH]; [cbn; lia|]. cbn [crlf_lines flat_map length]. rewrite !app_length. cbn [length].
    unfold crlf_lines in IH. lia. }
  pose proof (head_lines_ok (S (length (crlf_lines (rl :: map fline fs) ++ [13; 10]))) (rl :: map fline fs) []) as HL.
  cbn [app] in HL. rewrite HL; [|constructor; [exact Hrl|]|exact Hfuel].
  - unfold rl. rewrite cut_at_ok by assumption. rewrite cut_at_ok by assumption.
    rewrite fields_of_ok by assumption. reflexivity.
  - rewrite Forall_forall in *. intros l Hl. apply in_map_iff in Hl as (f & <- & Hin). apply fline_ok, Hwf, Hin.
Qed.

(** ** The chain *)
Lemma chain_stop {S} (pre post : list (S -> res Z * S)) h s s1 s2 r r0 :
  all_continue pre s s1 -> h s1 = (Ok r, s2) -> r <> 0 ->
  chain (pre ++ h :: post) s r0 = (Ok (if r =? 1 then 0 else r), s2).
Proof.
  intros Hpre Hh Hr. revert r0. induction Hpre as [s|h0 hs s s' s'' H0 _ IH]; intros r0; cbn [app chain].
  - rewrite Hh. unfold PHASE_NO_CONTINUE, PHASE_CONTINUE. destruct (r =? 1) eqn:E; [reflexivity|].
    destruct (r =? 0) eqn:E2; [lia|reflexivity].
  - rewrite H0. cbn [PHASE_NO_CONTINUE PHASE_CONTINUE Z.eqb]. apply IH, Hh.
Qed.

Lemma chain_all {S} (hs : list (S -> res Z * S)) s s1 : all_continue hs s s1 -> chain hs s 0 = (Ok 0, s1).
Proof.
  induction 1 as [s|h0 hs s s' s'' H0 _ IH]; [reflexivity|]. cbn [chain]. rewrite H0. exact IH.
Qed.

Lemma chain_crash {S} (pre post : list (S -> res Z * S)) h s s1 s2 r0 :
  all_continue pre s s1 -> h s1 = (UB, s2) -> chain (pre ++ h :: post) s r0 = (UB, s2).
Proof.
  intros Hpre Hh. revert r0. induction Hpre as [s|h0 hs s s' s'' H0 _ IH]; intros r0; cbn [app chain].
  - rewrite Hh. reflexivity.
  - rewrite H0. cbn [PHASE_NO_CONTINUE PHASE_CONTINUE Z.eqb]. apply IH, Hh.
Qed.


(** ** The response head *)
Definition rsp_fields (h : hrsp) : list (list Z * list Z) :=
  (if hr_chunked h then [(str "Transfer-Encoding", str "chunked")]
   else if 0 <=? hr_cl h then [(str "Content-Length", decs (hr_cl h))] else []) ++
  filter (fun kv => negb (eqb_list (fst kv) (str "Content-Length") && (negb (hr_chunked h) && (0 <=? hr_cl h))))
    (hr_headers h) ++
  (if existsb (fun kv => eqb_list (fst kv) (str "Server")) (hr_headers h) then []
   else [(str "Server", str "sps")]).

Lemma plain_lit l : forallb (fun c => negb (c =? 13) && negb (c =? 10)) l = true -> plain l.
Proof.
  intros H. unfold plain. rewrite Forall_forall. intros c Hc. rewrite forallb_forall in H.
  specialize (H c Hc). lia.
Qed.
Lemma notin_lit c l : existsb (Z.eqb c) l = false -> ~ In c l.
Proof.
  intros H Hin. assert (existsb (Z.eqb c) l = true); [|congruence].
  apply existsb_exists. exists c. split; [exact Hin|apply Z.eqb_refl].
Qed.

Lemma decs_plain n : 0 <= n -> plain (decs n).
Proof.
  intros Hn. pose proof (dec_number_chars _ _ (decs_ok n Hn)) as Hc. eapply Forall_impl; [|exact Hc]. cbn. lia.
Qed.

Lemma response_head_message reason h rest :
  0 <= hr_status h -> plain (reason (hr_status h)) -> Forall field_wf (hr_headers h) ->
  read_message (response_head reason h ++ rest) =
    Some (str "HTTP/1.1 " ++ decs (hr_status h) ++ str " " ++ reason (hr_status h), rsp_fields h, rest).
Proof.
  intros Hst Hre Hwf.
  set (sl := str "HTTP/1.1 " ++ decs (hr_status h) ++ str " " ++ reason (hr_status h)).
  assert (Hfs : Forall field_wf (rsp_fields h)).
  { unfold rsp_fields. apply Forall_app. split; [|apply Forall_app; split].
    - destruct (hr_chunked h); [|destruct (0 <=? hr_cl h) eqn:E]; [| |constructor].
      + constructor; [|constructor]. split; [apply plain_lit; reflexivity|].
        split; [apply plain_lit; reflexivity|apply notin_lit; reflexivity].
      + constructor; [|constructor]. split; [apply plain_lit; reflexivity|].
        split; [cbn [snd]; apply decs_plain; lia|apply notin_lit; reflexivity].
    - rewrite Forall_forall in *. intros x Hx. apply filter_In in Hx as [Hx _]. auto.
    - destruct (existsb _ _); [constructor|]. constructor; [|constructor].
      split; [apply plain_lit; reflexivity|]. split; [apply plain_lit; reflexivity|apply notin_lit; reflexivity]. }
  assert (Hsl : sl <> [] /\ plain sl).
  { split; [discriminate|]. unfold sl, plain. apply Forall_app. split; [apply plain_lit; reflexivity|].
    apply Forall_app. split; [apply decs_plain; exact Hst|]. apply Forall_app. split; [apply plain_lit; reflexivity|exact Hre]. }
  assert (Htext : response_head reason h = crlf_lines (sl :: map fline (rsp_fields h)) ++ [13; 10]).
  { unfold response_head. rewrite header_lines_ok. unfold rsp_fields. rewrite !map_app.
    change (sl :: ?x) with ([sl] ++ x). rewrite !crlf_lines_app.
    unfold crlf_lines at 2. cbn [flat_map]. rewrite app_nil_r. unfold sl. rewrite <- !app_assoc.
    do 4 f_equal. change [CR; LF] with [13; 10]. change crlf with [13; 10]. f_equal.
    replace (if hr_chunked h then str "Transfer-Encoding: chunked" ++ [13; 10]
             else if 0 <=? hr_cl h then str "Content-Length: " ++ decs (hr_cl h) ++ [13; 10] else [])
      with (crlf_lines (map fline (if hr_chunked h then [(str "Transfer-Encoding", str "chunked")]
             else if 0 <=? hr_cl h then [(str "Content-Length", decs (hr_cl h))] else []))).
    2:{ destruct (hr_chunked h); [reflexivity|]. destruct (0 <=? hr_cl h); [|reflexivity].
        unfold crlf_lines. cbn [map flat_map]. rewrite app_nil_r. unfold fline. cbn [fst snd].
        change (str "Content-Length: ") with (str "Content-Length" ++ [58; 32]). rewrite <- !app_assoc. reflexivity. }
    f_equal. f_equal. f_equal. destruct (existsb _ _); reflexivity. }
  unfold read_message. rewrite Htext, <- app_assoc.
  assert (Hfuel : (length (sl :: map fline (rsp_fields h)) <
     S (length (crlf_lines (sl :: map fline (rsp_fields h)) ++ [13; 10]%Z ++ rest)))%nat).
  { clear. generalize (sl :: map fline (rsp_fields h)). intros ls. rewrite app_length.
    enough (length ls <= length (crlf_lines ls))%nat by lia.
    induction ls as [|l ls IH]; [cbn; lia|]. cbn [crlf_lines flat_map length]. rewrite !app_length. cbn [length].
    unfold crlf_lines in IH. lia. }
  rewrite head_lines_ok; [|constructor; [exact Hsl|]|exact Hfuel].
  - rewrite fields_of_ok by assumption. reflexivity.
  - rewrite Forall_forall in *. intros l Hl. apply in_map_iff in Hl as (f & <- & Hin). apply fline_ok, Hfs, Hin.
Qed.

(** ** The body readers on arbitrary input *)
Lemma size_line_any fuel : forall t acc, nonempty_chunks (t_chunks t) ->
  33 - zlen acc < Z.of_nat fuel -> zlen acc < 33 ->
  exists x t1, size_line fuel t acc = (x, t1) /\ nonempty_chunks (t_chunks t1) /\
    ((exists l, x = Ok l /\ 0 < zlen l) \/ exists e, x = Err e).
Proof.
  induction fuel as [|f IH]; intros t acc Hne Hf Ha; [lia|]. cbn [size_line].
  pose proof (t_read1 t Hne) as Hr. destruct (t_stream t) as [|c s].
  - rewrite Hr. eexists _, t. split; [reflexivity|]. eauto.
  - destruct Hr as (t1 & -> & _ & Hne1 & _). rewrite zlen_app. change (zlen [c]) with 1.
    pose proof (zlen_nonneg acc).
    destruct ((c =? LF) || (33 <=? zlen acc + 1)) eqn:E.
    + eexists _, t1. split; [reflexivity|]. split; [exact Hne1|]. left. eexists. split; [reflexivity|].
      rewrite zlen_app. change (zlen [c]) with 1. lia.
    + apply IH; [exact Hne1| |]; rewrite zlen_app; change (zlen [c]) with 1; lia.
Qed.

Lemma size_of_line_any l : 0 < zlen l -> (exists n, size_of_line l = Ok n /\ 0 <= n < 2 ^ 64) \/ exists e, size_of_line l = Err e.
Proof.
  intros Hl. unfold size_of_line. destruct (nthz_in_range l (zlen l - 1)) as [c ->]; [lia|]. cbn [of_opt bind].
  destruct (negb (c =? LF)); [eauto|]. destruct (zlen l <? 2) eqn:E; [eauto|].
  destruct (nthz_in_range l (zlen l - 2)) as [c2 ->]; [lia|]. cbn [of_opt bind].
  destruct (negb (c2 =? CR)); [eauto|]. left. eexists. split; [reflexivity|].
  unfold strtoul16. destruct (sign_of _) as [neg l1].
  assert (Hnn : forall l a, 0 <= a -> 0 <= numrun hexval 16 l a).
  { induction l0 as [|d l0 IH]; intros a Ha; [exact Ha|]. cbn [numrun]. destruct (hexval d) as [v|] eqn:Ev; [|exact Ha].
    apply IH. assert (0 <= v); [|lia]. unfold hexval in Ev.
    destruct ((48 <=? d) && (d <=? 57)) eqn:E1; [injection Ev as <-; lia|].
    destruct ((97 <=? d) && (d <=? 102)) eqn:E2; [injection Ev as <-; lia|].
    destruct ((65 <=? d) && (d <=? 70)) eqn:E3; [injection Ev as <-; lia|discriminate]. }
  pose proof (Hnn (skip_0x l1) 0 ltac:(lia)).
  destruct (2 ^ 64 - 1 <? numrun hexval 16 (skip_0x l1) 0) eqn:E3; [lia|].
  destruct neg; [unfold u64; apply Z.mod_pos_bound; lia|lia].
Qed.

Definition hb_ok (b : hbody) : Prop :=
  0 <= hb_left b < 2 ^ 64 /\ (hb_left b <> 0 -> hb_size b <> 0) /\ 0 <= hb_nread b /\
  (0 <= hb_cl b -> hb_eof b = false -> hb_nread b <= hb_cl b) /\ hb_cl b < 2 ^ 31.

Lemma t_read_ne t size x t1 : nonempty_chunks (t_chunks t) -> t_read t size = (x, t1) ->
  nonempty_chunks (t_chunks t1) /\
  ((exists d, x = Ok d /\ 0 < zlen d <= size /\ t_stream t = d ++ t_stream t1) \/ (exists e, x = Err e)).
Proof.
  intros Hne H. destruct (Z_lt_le_dec 0 size) as [Hs|Hs].
  - destruct (t_read_ok t size Hne Hs) as [[Hn E]|(d & t2 & E & Hd & Hl & Hst & Hne1 & He)]; rewrite E in H; injection H as <- <-.
    + split; [exact Hne|]. eauto.
    + split; [exact Hne1|]. left. exists d. split; [reflexivity|]. split; [|exact Hst].
      destruct d; [congruence|]. rewrite zlen_cons in *. pose proof (zlen_nonneg d). lia.
  - unfold t_read in H. destruct (size <=? 0) eqn:E; [|lia]. injection H as <- <-. eauto.
Qed.

Lemma read_fully_loop_ne fuel : forall t size acc x t1, nonempty_chunks (t_chunks t) ->
  0 <= size - zlen acc < Z.of_nat fuel -> read_fully_loop fuel t size acc = (x, t1) ->
  nonempty_chunks (t_chunks t1) /\ ((exists d, x = Ok d /\ zlen d = size) \/ exists e, x = Err e).
Proof.
  induction fuel as [|f IH]; intros t size acc x t1 Hne Hf H; [lia|]. cbn [read_fully_loop] in H.
  destruct (t_read t (size - zlen acc)) as [y t2] eqn:E.
  destruct (t_read_ne _ _ _ _ Hne E) as [Hne2 [(d & -> & Hd & _)|(e & ->)]].
  - rewrite zlen_app in H. destruct (zlen acc + zlen d <? size) eqn:El.
    + eapply IH; [exact Hne2| |exact H]. rewrite zlen_app. lia.
    + injection H as <- <-. split; [exact Hne2|]. left. eexists. split; [reflexivity|]. rewrite zlen_app. lia.
  - injection H as <- <-. eauto.
Qed.

Lemma read_fully_ne t size x t1 : nonempty_chunks (t_chunks t) -> 0 <= size -> read_fully t size = (x, t1) ->
  nonempty_chunks (t_chunks t1) /\ ((exists d, x = Ok d /\ zlen d = size) \/ exists e, x = Err e).
Proof. intros Hne Hs. apply read_fully_loop_ne; [exact Hne|]. change (zlen (@nil Z)) with 0. lia. Qed.

(** Either some bytes, no more than asked for, or a reported error. *)
Definition bounded (x : res (list Z)) (size : Z) : Prop :=
  (exists d, x = Ok d /\ zlen d <= size) \/ exists e, x = Err e.

Lemma chunk_tail_any b t d size : nonempty_chunks (t_chunks t) -> zlen d <= size ->
  exists x b1 t1, chunk_tail b t d = (x, b1, t1) /\ nonempty_chunks (t_chunks t1) /\
    hb_left b1 = hb_left b /\ bounded x size.
Proof.
  intros Hne Hd. unfold chunk_tail.
  assert (Hl : hb_left (if hb_size b =? 0 then hb_set_eof b else b) = hb_left b) by (destruct (hb_size b =? 0); reflexivity).
  destruct (hb_left b =? 0).
  - destruct (read_fully t 2) as [x t1] eqn:E. destruct (read_fully_ne t 2 x t1 Hne ltac:(lia) E) as [Hne1 [(tl & -> & _)|(e & ->)]].
    + destruct (eqb_list tl crlf); eexists _, _, t1; (split; [reflexivity|]); (split; [exact Hne1|]); (split; [try exact Hl; reflexivity|]);
        [left; eauto|right; eauto].
    + eexists _, _, t1. split; [reflexivity|]. split; [exact Hne1|]. split; [reflexivity|right; eauto].
  - eexists _, _, t. split; [reflexivity|]. split; [exact Hne|]. split; [exact Hl|left; eauto].
Qed.

Lemma rq_data_any b t size : nonempty_chunks (t_chunks t) -> 0 <= hb_left b < 2 ^ 64 -> 0 <= size ->
  exists x b1 t1, rq_data b t size = (x, b1, t1) /\ nonempty_chunks (t_chunks t1) /\
    0 <= hb_left b1 < 2 ^ 64 /\ bounded x size.
Proof.
  intros Hne Hl Hs. unfold rq_data. destruct (hb_size b =? 0).
  - destruct (chunk_tail_any b t [] size Hne) as (x & b1 & t1 & -> & A & B & C); [exact Hs|].
    eexists _, _, _. split; [reflexivity|]. split; [exact A|]. split; [lia|exact C].
  - destruct (t_read t (Z.min (hb_left b) size)) as [y t1] eqn:E.
    destruct (t_read_ne _ _ _ _ Hne E) as [Hne1 [(d & -> & Hd & _)|(e & ->)]].
    + destruct (chunk_tail_any (hb_set_left b (u64 (hb_left b - zlen d))) t1 d size Hne1 ltac:(lia)) as (x & b1 & t2 & -> & A & B & C).
      eexists _, _, _. split; [reflexivity|]. split; [exact A|]. split; [|exact C]. rewrite B. cbn [hb_left hb_set_left].
      unfold u64. apply Z.mod_pos_bound. lia.
    + eexists _, _, _. split; [reflexivity|]. split; [exact Hne1|]. split; [exact Hl|right; eauto].
Qed.

Lemma up_data_any b t size : nonempty_chunks (t_chunks t) -> 0 <= hb_left b < 2 ^ 64 -> 0 <= size ->
  exists x b1 t1, up_data b t size = (x, b1, t1) /\ nonempty_chunks (t_chunks t1) /\
    0 <= hb_left b1 < 2 ^ 64 /\ bounded x size.
Proof.
  intros Hne Hl Hs. unfold up_data. set (b1 := hb_set_left b _).
  assert (Hb1 : 0 <= hb_left b1 < 2 ^ 64) by (apply Z.mod_pos_bound; lia).
  destruct (Z.min (hb_left b) size =? 0) eqn:E0.
  - destruct (chunk_tail_any b1 t [] size Hne) as (x & b2 & t1 & -> & A & B & C); [exact Hs|].
    eexists _, _, _. split; [reflexivity|]. split; [exact A|]. split; [lia|exact C].
  - destruct (read_fully t (Z.min (hb_left b) size)) as [y t1] eqn:E.
    destruct (read_fully_ne t (Z.min (hb_left b) size) y t1 Hne ltac:(lia) E) as [Hne1 [(d & -> & Hd)|(e & ->)]].
    + destruct (chunk_tail_any b1 t1 d size Hne1 ltac:(lia)) as (x & b2 & t2 & -> & A & B & C).
      eexists _, _, _. split; [reflexivity|]. split; [exact A|]. split; [lia|exact C].
    + eexists _, _, _. split; [reflexivity|]. split; [exact Hne1|]. split; [exact Hb1|right; eauto].
Qed.

Definition data_any (data : hbody -> transport -> Z -> res (list Z) * hbody * transport) : Prop :=
  forall b t size, nonempty_chunks (t_chunks t) -> 0 <= hb_left b < 2 ^ 64 -> 0 <= size ->
  exists x b1 t1, data b t size = (x, b1, t1) /\ nonempty_chunks (t_chunks t1) /\
    0 <= hb_left b1 < 2 ^ 64 /\ bounded x size.

Lemma hb_read_any data b t size : data_any data ->
  nonempty_chunks (t_chunks t) -> 0 <= hb_left b < 2 ^ 64 -> 0 <= size ->
  exists x b1 t1, hb_read data b t size = (x, b1, t1) /\ nonempty_chunks (t_chunks t1) /\
    0 <= hb_left b1 < 2 ^ 64 /\ bounded x size.
Proof.
  intros Hda Hne Hl Hs. unfold hb_read. destruct (hb_eof b).
  { eexists _, _, _. split; [reflexivity|]. split; [exact Hne|]. split; [exact Hl|right; eauto]. }
  destruct (hb_chunked b).
  - unfold read_chunked. destruct (hb_left b =? 0); [|apply Hda; assumption].
    unfold read_chunk_len.
    destruct (size_line_any 34 t [] Hne) as (x & t1 & -> & Hne1 & [(l & -> & Hll)|(e & ->)]);
      [change (zlen (@nil Z)) with 0; lia|change (zlen (@nil Z)) with 0; lia| |].
    + destruct (size_of_line_any l Hll) as [(n & -> & Hn)|(e & ->)].
      * apply Hda; assumption.
      * eexists _, _, _. split; [reflexivity|]. split; [exact Hne1|]. split; [exact Hl|right; eauto].
    + eexists _, _, _. split; [reflexivity|]. split; [exact Hne1|]. split; [exact Hl|right; eauto].
  - destruct (t_read t _) as [y t1] eqn:E. destruct (t_read_ne _ _ _ _ Hne E) as [Hne1 [(d & -> & Hd & _)|(e & ->)]].
    + eexists _, _, _. split; [reflexivity|]. split; [exact Hne1|]. split; [exact Hl|]. left. exists d.
      split; [reflexivity|]. destruct (0 <=? hb_cl b); lia.
    + eexists _, _, _. split; [reflexivity|]. split; [exact Hne1|]. split; [exact Hl|right; eauto].
Qed.

Lemma hb_run_any data : data_any data -> forall sizes b t,
  nonempty_chunks (t_chunks t) -> 0 <= hb_left b < 2 ^ 64 -> Forall (fun n => 0 <= n) sizes ->
  exists ds e b2 t2, hb_run data b t sizes = (ds, e, b2, t2) /\
    Forall2 (fun d n => zlen d <= n) ds (firstn (length ds) sizes) /\ (e = Ok tt \/ exists c, e = Err c).
Proof.
  intros Hda. induction sizes as [|n ns IH]; intros b t Hne Hl Hf.
  - cbn. eexists _, _, _, _. split; [reflexivity|]. split; [constructor|auto].
  - inversion_clear Hf as [|? ? Hn Hns]. cbn [hb_run].
    destruct (hb_read_any data b t n Hda Hne Hl Hn) as (x & b1 & t1 & -> & A & B & [(d & -> & Hd)|(e & ->)]).
    + destruct (IH b1 t1 A B Hns) as (ds & e & b2 & t2 & -> & C & D).
      eexists _, _, _, _. split; [reflexivity|]. split; [|exact D]. cbn [length firstn]. constructor; assumption.
    + eexists _, _, _, _. split; [reflexivity|]. split; [constructor|eauto].
Qed.

(** ** A chunk size line that is not a number *)
Lemma size_line_gen s : forall fuel t acc rest, plain s -> nonempty_chunks (t_chunks t) ->
  t_stream t = s ++ [13; 10] ++ rest -> zlen acc + zlen s <= 31 -> zlen s + 2 < Z.of_nat fuel ->
  exists t1, size_line fuel t acc = (Ok (acc ++ s ++ [13; 10]), t1) /\ t_stream t1 = rest /\
    nonempty_chunks (t_chunks t1).
Proof.
  induction s as [|c s IH]; intros fuel t acc rest Hp Hne Hst Hl Hf.
  - change (zlen (@nil Z)) with 0 in *. pose proof (zlen_nonneg acc). destruct fuel as [|[|fuel]]; [lia|lia|]. cbn [size_line].
    pose proof (t_read1 t Hne) as Hr. rewrite Hst in Hr. cbn [app] in Hr. destruct Hr as (t1 & -> & H1 & H2 & _).
    rewrite zlen_app. change (zlen [13]) with 1.
    change (13 =? LF) with false. destruct (33 <=? zlen acc + 1) eqn:E; [lia|]. cbn [orb].
    pose proof (t_read1 t1 H2) as Hr. rewrite H1 in Hr. destruct Hr as (t2 & -> & H3 & H4 & _).
    cbn [orb]. change (10 =? LF) with true. cbn [orb]. exists t2. cbn [app]. rewrite <- app_assoc. auto.
  - rewrite zlen_cons in *. pose proof (zlen_nonneg s). pose proof (zlen_nonneg acc). destruct fuel as [|fuel]; [lia|].
    inversion_clear Hp as [|? ? Hc Hp']. cbn [size_line].
    pose proof (t_read1 t Hne) as Hr. rewrite Hst in Hr. cbn [app] in Hr. destruct Hr as (t1 & -> & H1 & H2 & _).
    rewrite zlen_app. change (zlen [c]) with 1. unfold LF.
    replace ((c =? 10) || (33 <=? zlen acc + 1)) with false by lia.
    destruct (IH fuel t1 (acc ++ [c]) rest Hp' H2 H1) as (t2 & -> & A & B); [rewrite zlen_app; change (zlen [c]) with 1; lia|lia|].
    exists t2. rewrite <- app_assoc. auto.
Qed.

Lemma size_of_line_gen s : size_of_line (s ++ [13; 10]) = Ok (strtoul16 s).
Proof.
  pose proof (zlen_nonneg s).
  unfold size_of_line. rewrite zlen_app. change (zlen [13; 10]) with 2.
  rewrite !nthz_app_r by lia. replace (zlen s + 2 - 1 - zlen s) with 1 by lia.
  replace (zlen s + 2 - 2 - zlen s) with 0 by lia. 
  replace (zlen s + 2 - 2) with (zlen s) by lia. rewrite take_app_exact by reflexivity.
  change (nthz [13; 10] 1) with (Some 10). change (nthz [13; 10] 0) with (Some 13). cbn [of_opt bind].
  change (negb (10 =? LF)) with false. change (negb (13 =? CR)) with false.
  destruct (zlen s + 2 <? 2) eqn:E; [lia|]. reflexivity.
Qed.

Lemma bad_size_ends data b t s rest size : data_ok data -> plain s -> zlen s <= 31 -> strtoul16 s = 0 ->
  hb_chunked b = true -> hb_eof b = false -> hb_left b = 0 -> 0 < size ->
  nonempty_chunks (t_chunks t) -> t_stream t = s ++ [13; 10] ++ [13; 10] ++ rest ->
  exists b1 t1, hb_read data b t size = (Ok [], b1, t1) /\ hb_eof b1 = true /\ t_stream t1 = rest.
Proof.
  intros [_ Hz] Hp Hl H0 Hc He Hleft Hs Hne Hst. unfold hb_read. rewrite He, Hc. unfold read_chunked.
  rewrite Hleft. cbn [Z.eqb]. unfold read_chunk_len.
  destruct (size_line_gen s 34 t [] ([13; 10] ++ rest) Hp Hne Hst) as (t1 & -> & H1 & H2);
    [change (zlen (@nil Z)) with 0; lia|lia|]. cbn [app]. rewrite size_of_line_gen, H0.
  destruct (Hz (mkhb (hb_chunked b) (hb_cl b) (hb_eof b) (hb_nread b) 0 0) t1 rest size H2) as (b1 & t2 & -> & A & B & _);
    try reflexivity; [lia|exact H1|]. eauto.
Qed.

Lemma no_number_zero s : no_number s -> strtoul16 s = 0.
Proof.
  destruct s as [|c s]; [reflexivity|]. intros [Hh Hs]. cbn [In] in Hs.
  unfold strtoul16. cbn [skip_space]. assert (is_space c = false) as -> by (unfold is_space; lia).
  cbn [sign_of]. assert ((c =? 45) = false) as -> by lia. assert ((c =? 43) = false) as -> by lia.
  assert (hexval c = None) as Hn.
  { unfold hexval, hex_value in *.
    destruct ((48 <=? c) && (c <=? 57)) eqn:E1; [exfalso; apply (Hh (c - 48)); lia|].
    destruct ((97 <=? c) && (c <=? 102)) eqn:E2; [exfalso; apply (Hh (c - 87)); lia|].
    destruct ((65 <=? c) && (c <=? 70)) eqn:E3; [exfalso; apply (Hh (c - 55)); lia|reflexivity]. }
  assert (Hk : numrun hexval 16 (skip_0x (c :: s)) 0 = 0).
  { unfold skip_0x. destruct s as [|x [|d s]].
    - cbn [numrun]. rewrite Hn. reflexivity.
    - cbn [numrun]. rewrite Hn. reflexivity.
    - assert ((c =? 48) = false) as ->.
      { destruct (c =? 48) eqn:E; [|reflexivity]. exfalso. apply (Hh 0). unfold hex_value. lia. }
      cbn [andb numrun]. rewrite Hn. reflexivity. }
  rewrite Hk. reflexivity.
Qed.

(** ** The connection loop *)
Lemma conn_loop_heads exec serve : forall hs fuel c,
  Forall (fun h => is_head h /\ zlen h <= MAX_HEADER /\ 0 < exec h /\ (serve h = 0 \/ serve h = 1)) hs ->
  nonempty_chunks (t_chunks (hc_in c)) -> t_stream (hc_in c) = concat hs -> (length hs < fuel)%nat ->
  t_err (hc_in c) <> 0 -> t_err (hc_in c) <> -1 -> t_err (hc_in c) <> 1 ->
  exists r c1, conn_loop fuel (http_server exec serve) c = (Ok r, c1) /\ hc_served c1 = hc_served c ++ hs /\ r <> 0.
Proof.
  induction hs as [|h hs IH]; intros fuel c Hf Hne Hst Hfu He0 He1 He2.
  - destruct fuel as [|fuel]; [cbn in Hfu; lia|]. cbn [conn_loop http_server chain]. unfold parse_phase.
    destruct (read_head_any (hc_in c) MAX_HEADER Hne) as (x & t1 & -> & Hx); [unfold MAX_HEADER; lia|].
    cbn [concat] in Hst. rewrite Hst in Hx.
    destruct Hx as [(d & -> & Hd & Hs & _)|[(-> & d & Hs & _)|(-> & _)]].
    + destruct d; [change (zlen (@nil Z)) with 0 in Hd; lia|discriminate].
    + cbn. eexists _, _. split; [reflexivity|]. cbn. rewrite app_nil_r. split; [reflexivity|lia].
    + unfold PHASE_NO_CONTINUE, PHASE_CONTINUE.
      assert (head_err (t_err (hc_in c)) <> 0 /\ head_err (t_err (hc_in c)) <> 1) as [A B]
        by (unfold head_err; destruct (0 <? t_err (hc_in c)) eqn:E; lia).
      destruct (head_err (t_err (hc_in c)) =? 1) eqn:E1; [lia|].
      destruct (head_err (t_err (hc_in c)) =? 0) eqn:E2; [lia|].
      cbv beta iota. rewrite E2.
      eexists _, _. split; [reflexivity|]. cbn. rewrite app_nil_r. auto.
  - pose proof (Forall_inv Hf) as (Hh & Hm & Hex & Hsv). apply Forall_inv_tail in Hf as Hf'.
    destruct fuel as [|fuel]; [cbn in Hfu; lia|]. cbn [conn_loop http_server chain]. unfold parse_phase.
    cbn [concat] in Hst.
    destruct (read_head_ok h (concat hs) (hc_in c) MAX_HEADER (is_head_shape h Hh) Hne Hst Hm) as (t1 & -> & H1 & H2 & H3).
    destruct (exec h <=? 0) eqn:E; [lia|].
    change (PHASE_CONTINUE =? PHASE_NO_CONTINUE) with false. change (PHASE_CONTINUE =? PHASE_CONTINUE) with true.
    cbv beta iota.
    unfold router_phase. cbn [hc_ctx hc_in hc_served].
    set (c1 := mkhc t1 (Some h) (hc_served c ++ [h])).
    destruct (IH fuel c1) as (r & c2 & A & B & C); try assumption; try (cbn; rewrite H3; assumption); [cbn in Hfu; lia|].
    exists r, c2. split; [|split; [rewrite B; cbn; rewrite <- app_assoc; reflexivity|exact C]].
    unfold PHASE_NO_CONTINUE, PHASE_CONTINUE. destruct Hsv as [-> | ->]; cbn [Z.eqb]; exact A.
Qed.

(** ** The proxy *)
Lemma http_request_nonempty m u h d hs : (zlen (http_request m u h d hs) =? 0) = false.
Proof.
  unfold http_request. rewrite !zlen_app.
  pose proof (zlen_nonneg m). pose proof (zlen_nonneg u).
  change (zlen (str " HTTP/1.1")) with 9. change (zlen (str " ")) with 1.
  match goal with |- (?a + (1 + (?b + (9 + ?z))) =? 0) = false => assert (0 <= z); [|lia] end.
  rewrite <- !zlen_app. apply zlen_nonneg.
Qed.

Lemma proxy_start reason lib rq up ups client head parsed ri rest :
  is_head head -> zlen head <= MAX_HEADER -> nonempty_chunks (t_chunks up) -> t_stream up = head ++ rest ->
  lib head = (parsed, ri) -> 0 < parsed -> sk_room ups = None -> sk_room client = None ->
  let req := http_request (pq_method rq) (pq_url rq) (pq_host rq) [] (pq_headers rq) in
  let h := mkhr (ri_status ri) false (ri_cl ri) (ri_chunked ri) (ri_headers ri) in
  exists up1, t_stream up1 = rest /\ nonempty_chunks (t_chunks up1) /\
  proxy reason lib rq up ups client =
    match relay (S (S (length rest))) reason (hb_new (ri_chunked ri) (ri_cl ri)) up1
            (mkhr (ri_status ri) true (ri_cl ri) (ri_chunked ri) (ri_headers ri))
            (mksk (sk_out client ++ response_head reason h) None (sk_err client)) with
    | (Err c, up2, c2) => (if c =? ERROR_HTTP_RES_EOF then Ok 1 else Err c, up2, mksk (sk_out ups ++ req) None (sk_err ups), c2)
    | (Ok _, up2, c2) => (Ok 1, up2, mksk (sk_out ups ++ req) None (sk_err ups), c2)
    | (UB, up2, c2) => (UB, up2, mksk (sk_out ups ++ req) None (sk_err ups), c2)
    | (Fuel, up2, c2) => (Fuel, up2, mksk (sk_out ups ++ req) None (sk_err ups), c2)
    end.
Proof.
  intros Hh Hm Hne Hst Hlib Hp Hu Hc req h.
  destruct (read_head_ok head rest up MAX_HEADER (is_head_shape head Hh) Hne Hst Hm) as (t1 & Hr & H1 & H2 & H3).
  exists t1. split; [exact H1|]. split; [exact H2|].
  unfold proxy. unfold sk_write at 1. rewrite Hu, http_request_nonempty. cbn [option_map]. rewrite Hr, Hlib.
  destruct (parsed <? 0) eqn:E1; [lia|]. destruct (parsed =? 0) eqn:E2; [lia|].
  rewrite hr_header_none by exact Hc. unfold hr_init. cbn [hr_status hr_cl hr_chunked hr_headers].
  change (concat (t_chunks t1)) with (t_stream t1). rewrite H1. reflexivity.
Qed.

Lemma values_of_app k a b : values_of k (a ++ b) = values_of k a ++ values_of k b.
Proof. unfold values_of. rewrite filter_app, map_app. reflexivity. Qed.
Lemma values_filter k p l : (forall f, p f = false -> eqb_list (fst f) k = false) ->
  values_of k (filter p l) = values_of k l.
Proof.
  intros H. unfold values_of. f_equal. induction l as [|f l IH]; [reflexivity|]. cbn [filter].
  destruct (p f) eqn:E; cbn [filter]; [destruct (eqb_list (fst f) k); congruence|]. rewrite (H f E). exact IH.
Qed.
Lemma response_te h : hr_chunked h = true ->
  values_of (str "Transfer-Encoding") (rsp_fields h) =
  str "chunked" :: values_of (str "Transfer-Encoding") (hr_headers h).
Proof.
  intros Hc. unfold rsp_fields. rewrite Hc. rewrite !values_of_app, values_filter.
  2:{ intros f Hf. cbn [negb andb] in Hf. rewrite andb_false_r in Hf. discriminate. }
  assert (values_of (str "Transfer-Encoding") (if existsb (fun kv => eqb_list (fst kv) (str "Server")) (hr_headers h) then []
    else [(str "Server", str "sps")]) = []) as -> by (destruct (existsb _ _); reflexivity).
  rewrite app_nil_r. reflexivity.
Qed.
Lemma response_cl h : hr_chunked h = false -> 0 <= hr_cl h ->
  values_of (str "Content-Length") (rsp_fields h) = [decs (hr_cl h)].
Proof.
  intros Hc Hl. unfold rsp_fields. rewrite Hc. destruct (0 <=? hr_cl h) eqn:E; [|lia]. rewrite !values_of_app.
  assert (values_of (str "Content-Length") (if existsb (fun kv => eqb_list (fst kv) (str "Server")) (hr_headers h) then []
    else [(str "Server", str "sps")]) = []) as -> by (destruct (existsb _ _); reflexivity).
  rewrite app_nil_r. change (values_of (str "Content-Length") [(str "Content-Length", decs (hr_cl h))]) with [decs (hr_cl h)].
  assert (values_of (str "Content-Length") (filter (fun kv => negb (eqb_list (fst kv) (str "Content-Length") && (negb false && true)))
     (hr_headers h)) = []) as ->; [|reflexivity].
  unfold values_of. induction (hr_headers h) as [|f l IH]; [reflexivity|]. cbn [filter negb andb].
  destruct (eqb_list (fst f) (str "Content-Length")) eqn:E1; cbn [andb negb filter]; [exact IH|]. rewrite E1. exact IH.
Qed.
