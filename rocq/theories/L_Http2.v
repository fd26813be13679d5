(** Proofs about numerals, chunked bodies and fixed-length bodies. *)
From Verif Require Import Base M_IO S_IO L_IO M_Text M_Http S_Http L_Http.

(** ** Numerals *)
Lemma half_fuel f b n : 2 <= b -> b <= n < 2 ^ Z.of_nat (S f) -> (0 < f)%nat /\ 0 <= n / b < 2 ^ Z.of_nat f.
Proof.
  intros Hb Hn. rewrite Nat2Z.inj_succ, Z.pow_succ_r in Hn by lia.
  assert (0 < 2 ^ Z.of_nat f) by (apply Z.pow_pos_nonneg; lia).
  split; [destruct f; [change (2 ^ Z.of_nat 0) with 1 in Hn; lia|lia]|].
  split; [apply Z.div_pos; lia|]. apply Z.div_lt_upper_bound; [lia|]. nia.
Qed.

Lemma digits_hex fuel : forall n acc, (0 < fuel)%nat -> 0 <= n < 2 ^ Z.of_nat fuel -> 
  exists ds, digits fuel 16 n acc = ds ++ acc /\ hex_number ds n /\
    (forall k, 1 <= k -> n < 16 ^ k -> zlen ds <= k).
Proof.
  induction fuel as [|f IH]; intros n acc Hf Hn; [lia|].
  cbn [digits]. destruct (n <? 16) eqn:E.
  - exists [digit n]. split; [reflexivity|]. split.
    + constructor. unfold digit, hex_value. destruct (n <? 10) eqn:E2; lia.
    + intros k Hk _. change (zlen [digit n]) with 1. lia.
  - destruct (half_fuel f 16 n) as [Hf' Hd]; [lia|lia|].
    destruct (IH (n / 16) (digit (n mod 16) :: acc) Hf' Hd) as (ds & -> & Hx & Hlen).
    exists (ds ++ [digit (n mod 16)]). split; [rewrite <- app_assoc; reflexivity|]. split.
    + pose proof (Z.div_mod n 16 ltac:(lia)) as Hdm. pose proof (Z.mod_pos_bound n 16 ltac:(lia)).
      rewrite Hdm at 2. constructor; [exact Hx|]. unfold digit, hex_value.
      destruct (n mod 16 <? 10) eqn:E2; lia.
    + intros k Hk Hn16. rewrite zlen_app. change (zlen [digit (n mod 16)]) with 1.
      destruct (Z.eq_dec k 1) as [->|Hk1]; [change (16 ^ 1) with 16 in Hn16; lia|].
      assert (zlen ds <= k - 1); [|lia]. apply Hlen; [lia|]. apply Z.div_lt_upper_bound; [lia|].
      replace k with (Z.succ (k - 1)) in Hn16 by lia. rewrite Z.pow_succ_r in Hn16 by lia. exact Hn16.
Qed.

Lemma digits_dec fuel : forall n acc, (0 < fuel)%nat -> 0 <= n < 2 ^ Z.of_nat fuel -> 
  exists ds, digits fuel 10 n acc = ds ++ acc /\ dec_number ds n.
Proof.
  induction fuel as [|f IH]; intros n acc Hf Hn; [lia|].
  cbn [digits]. destruct (n <? 10) eqn:E.
  - exists [digit n]. split; [reflexivity|]. unfold digit. rewrite E.
    replace n with ((48 + n) - 48) at 2 by lia. constructor. lia.
  - destruct (half_fuel f 10 n) as [Hf' Hd]; [lia|lia|].
    destruct (IH (n / 10) (digit (n mod 10) :: acc) Hf' Hd) as (ds & -> & Hx).
    exists (ds ++ [digit (n mod 10)]). split; [rewrite <- app_assoc; reflexivity|].
    pose proof (Z.div_mod n 10 ltac:(lia)) as Hdm. pose proof (Z.mod_pos_bound n 10 ltac:(lia)).
    unfold digit. destruct (n mod 10 <? 10) eqn:E2; [|lia].
    rewrite Hdm at 2. replace (n mod 10) with ((48 + n mod 10) - 48) at 2 by lia.
    constructor; [exact Hx|lia].
Qed.

Lemma log2_fuel n : 0 <= n -> 0 <= n < 2 ^ Z.of_nat (S (Z.to_nat (Z.log2 n))).
Proof.
  intros Hn. split; [assumption|]. pose proof (Z.log2_nonneg n).
  rewrite Nat2Z.inj_succ, Z2Nat.id by lia.
  destruct (Z.eq_dec n 0) as [->|]; [reflexivity|].
  apply Z.log2_spec; lia.
Qed.

Lemma hexs_ok n : 0 <= n -> hex_number (hexs n) n /\ (n < 2 ^ 64 -> zlen (hexs n) <= 16).
Proof.
  intros Hn. unfold hexs, print_base.
  destruct (digits_hex (S (Z.to_nat (Z.log2 n))) n [] ltac:(lia) (log2_fuel n Hn)) as (ds & -> & Hx & Hl).
  rewrite app_nil_r. split; [exact Hx|]. intros Hb. apply Hl; [lia|].
  change (16 ^ 16) with (2 ^ 64). exact Hb.
Qed.

Lemma decs_ok n : 0 <= n -> dec_number (decs n) n.
Proof.
  intros Hn. unfold decs. destruct (n <? 0) eqn:E; [lia|]. unfold print_base.
  destruct (digits_dec (S (Z.to_nat (Z.log2 n))) n [] ltac:(lia) (log2_fuel n Hn)) as (ds & -> & Hx).
  rewrite app_nil_r. exact Hx.
Qed.

(** ** Size lines *)
Lemma hex_value_hexval c v : hex_value c v -> hexval c = Some v.
Proof.
  unfold hex_value, hexval. intros [[H ->]|[[H ->]|[H ->]]].
  - destruct ((48 <=? c) && (c <=? 57)) eqn:E; [reflexivity|lia].
  - destruct ((48 <=? c) && (c <=? 57)) eqn:E; [lia|].
    destruct ((97 <=? c) && (c <=? 102)) eqn:E2; [lia|].
    destruct ((65 <=? c) && (c <=? 70)) eqn:E3; [reflexivity|lia].
  - destruct ((48 <=? c) && (c <=? 57)) eqn:E; [lia|].
    destruct ((97 <=? c) && (c <=? 102)) eqn:E2; [reflexivity|lia].
Qed.

Lemma hex_number_run ds n : hex_number ds n -> forall ext acc,
  numrun hexval 16 (ds ++ ext) acc = numrun hexval 16 ext (acc * 16 ^ zlen ds + n).
Proof.
  induction 1 as [c v Hv|l n c v Hl IH Hv]; intros ext acc.
  - cbn [app numrun]. rewrite (hex_value_hexval c v Hv). change (zlen [c]) with 1. f_equal; lia.
  - rewrite <- app_assoc. rewrite IH. cbn [app numrun]. rewrite (hex_value_hexval c v Hv).
    rewrite zlen_app. change (zlen [c]) with 1. rewrite Z.pow_add_r by (pose proof (zlen_nonneg l); lia).
    f_equal. lia.
Qed.

Lemma hex_number_chars ds n : hex_number ds n ->
  ds <> [] /\ Forall (fun c => exists v, hex_value c v) ds /\ 0 <= n.
Proof.
  induction 1 as [c v Hv|l n c v Hl (IH1 & IH2 & IH3) Hv].
  - split; [discriminate|]. split; [constructor; [eauto|constructor]|]. unfold hex_value in Hv. lia.
  - split; [intros Hx; apply app_eq_nil in Hx as [_ Hx]; discriminate|].
    split; [apply Forall_app; split; [assumption|constructor; [eauto|constructor]]|].
    unfold hex_value in Hv. lia.
Qed.

Lemma size_text_strtoul s n : size_text s n -> strtoul16 s = n.
Proof.
  intros (ds & ext & -> & Hx & _ & Hext & _ & Hn).
  destruct (hex_number_chars ds n Hx) as (Hne & Hch & H0).
  unfold strtoul16.
  assert (E1 : skip_space (ds ++ ext) = ds ++ ext).
  { destruct ds as [|c ds']; [congruence|]. inversion_clear Hch as [|? ? [v Hv] _]. cbn [app skip_space].
    assert (is_space c = false) as ->; [|reflexivity].
    unfold is_space. unfold hex_value in Hv. lia. }
  rewrite E1.
  assert (E2 : sign_of (ds ++ ext) = (false, ds ++ ext)).
  { destruct ds as [|c ds']; [congruence|]. inversion_clear Hch as [|? ? [v Hv] _]. cbn [app sign_of].
    unfold hex_value in Hv. destruct (c =? 45) eqn:A; [lia|]. destruct (c =? 43) eqn:B; [lia|]. reflexivity. }
  rewrite E2.
  assert (E3 : skip_0x (ds ++ ext) = ds ++ ext).
  { destruct ds as [|c ds']; [congruence|]. inversion_clear Hch as [|? ? _ Hch']. cbn [app skip_0x].
    destruct (ds' ++ ext) as [|x r] eqn:Er; [reflexivity|].
    assert (x <> 120 /\ x <> 88).
    { destruct ds' as [|c2 ds2].
      - cbn in Er. destruct Hext as [->|[e ->]]; [discriminate|]. injection Er as <- _. lia.
      - inversion_clear Hch' as [|? ? [v Hv] _]. injection Er as <- _. unfold hex_value in Hv. lia. }
    destruct r as [|y r]; [reflexivity|].
    destruct ((c =? 48) && ((x =? 120) || (x =? 88))) eqn:E; [lia|reflexivity]. }
  rewrite E3, (hex_number_run ds n Hx).
  assert (E4 : numrun hexval 16 ext (0 * 16 ^ zlen ds + n) = n).
  { rewrite Z.mul_0_l. destruct Hext as [->|[e ->]]; [cbn [numrun]; lia|]. cbn [numrun].
    change (hexval 59) with (@None Z). cbn. lia. }
  rewrite E4. destruct (2 ^ 64 - 1 <? n) eqn:E; [lia|reflexivity].
Qed.

Lemma size_text_plain s n : size_text s n -> plain s /\ zlen s <= 31 /\ s <> [] /\ 0 <= n < 2 ^ 64.
Proof.
  intros (ds & ext & -> & Hx & Hp & _ & Hl & Hn). destruct (hex_number_chars ds n Hx) as (Hne & Hch & H0).
  split; [|split; [assumption|split; [|lia]]].
  - unfold plain. apply Forall_app. split; [|exact Hp]. eapply Forall_impl; [|exact Hch].
    cbn. intros c [v Hv]. unfold hex_value in Hv. lia.
  - intros Hz. apply app_eq_nil in Hz as [Hz _]. congruence.
Qed.

Lemma hexs_size_text n : 0 <= n < 2 ^ 64 -> size_text (hexs n) n.
Proof.
  intros Hn. destruct (hexs_ok n) as [Hx Hl]; [lia|]. exists (hexs n), [].
  rewrite app_nil_r. split; [reflexivity|]. split; [exact Hx|]. split; [constructor|].
  split; [left; reflexivity|]. split; [|lia]. assert (zlen (hexs n) <= 16) by (apply Hl; lia). lia.
Qed.

(** Reading one byte at a time. *)
Lemma t_read1 t : nonempty_chunks (t_chunks t) ->
  match t_stream t with
  | [] => t_read t 1 = (Err (t_err t), t)
  | c :: s => exists t1, t_read t 1 = (Ok [c], t1) /\ t_stream t1 = s /\
                nonempty_chunks (t_chunks t1) /\ t_err t1 = t_err t
  end.
Proof.
  intros Hne. destruct (t_read_ok t 1 Hne) as [[Hn ->]|(d & t1 & -> & Hd & Hl & Hst & Hne1 & He)]; [lia| |].
  - unfold t_stream. rewrite Hn. reflexivity.
  - rewrite Hst. destruct d as [|c d]; [congruence|]. rewrite zlen_cons in Hl.
    assert (d = []) as -> by (apply zlen_0_nil; pose proof (zlen_nonneg d); lia).
    cbn [app]. exists t1. auto.
Qed.

Lemma size_line_plain fuel : forall s rest t acc,
  plain s -> nonempty_chunks (t_chunks t) -> t_stream t = s ++ 10 :: rest ->
  zlen acc + zlen s + 1 <= 33 -> zlen s < Z.of_nat fuel ->
  exists t1, size_line fuel t acc = (Ok (acc ++ s ++ [10]), t1) /\ t_stream t1 = rest /\
    nonempty_chunks (t_chunks t1) /\ t_err t1 = t_err t.
Proof.
  induction fuel as [|f IH]; intros s rest t acc Hp Hne Hst Hlen Hf; [pose proof (zlen_nonneg s); lia|].
  cbn [size_line]. pose proof (t_read1 t Hne) as Hr. rewrite Hst in Hr.
  destruct s as [|c s].
  - cbn [app] in Hr. destruct Hr as (t1 & -> & Hs1 & Hne1 & He1). cbn [orb].
    change (10 =? LF) with true. cbn [orb]. exists t1. auto.
  - cbn [app] in Hr. destruct Hr as (t1 & -> & Hs1 & Hne1 & He1).
    inversion_clear Hp as [|? ? [Hc1 Hc2] Hp'].
    rewrite zlen_cons in Hlen, Hf. pose proof (zlen_nonneg s). pose proof (zlen_nonneg acc).
    assert (Hc : c =? LF = false) by (unfold LF; lia). rewrite Hc.
    rewrite zlen_app. change (zlen [c]) with 1.
    destruct (33 <=? zlen acc + 1) eqn:E; [lia|]. cbn [orb].
    destruct (IH s rest t1 (acc ++ [c])) as (t2 & E2 & Hs2 & Hne2 & He2); try assumption.
    + rewrite zlen_app. change (zlen [c]) with 1. lia.
    + lia.
    + exists t2. rewrite E2, He2. rewrite <- app_assoc. cbn [app]. auto.
Qed.

(** The size line ends with CR LF; the CR is not plain, so it is treated apart. *)
Lemma size_line_crlf fuel : forall s rest t acc,
  plain s -> nonempty_chunks (t_chunks t) -> t_stream t = s ++ 13 :: 10 :: rest ->
  zlen acc + zlen s + 2 <= 33 -> zlen s + 1 < Z.of_nat fuel ->
  exists t1, size_line fuel t acc = (Ok (acc ++ s ++ [13; 10]), t1) /\ t_stream t1 = rest /\
    nonempty_chunks (t_chunks t1) /\ t_err t1 = t_err t.
Proof.
  induction fuel as [|f IH]; intros s rest t acc Hp Hne Hst Hlen Hf; [pose proof (zlen_nonneg s); lia|].
  cbn [size_line]. pose proof (t_read1 t Hne) as Hr. rewrite Hst in Hr. pose proof (zlen_nonneg acc).
  destruct s as [|c s].
  - cbn [app] in Hr. destruct Hr as (t1 & -> & Hs1 & Hne1 & He1).
    change (13 =? LF) with false. change (zlen (@nil Z)) with 0 in *.
    rewrite zlen_app. change (zlen [13]) with 1.
    destruct (33 <=? zlen acc + 1) eqn:E; [lia|]. cbn [orb].
    destruct (size_line_plain f [] rest t1 (acc ++ [13])) as (t2 & E2 & Hs2 & Hne2 & He2); try assumption.
    + rewrite zlen_app. change (zlen [13]) with 1. change (zlen (@nil Z)) with 0. lia.
    + change (zlen (@nil Z)) with 0. lia.
    + exists t2. rewrite E2, He2. rewrite <- app_assoc. cbn [app]. auto.
  - cbn [app] in Hr. destruct Hr as (t1 & -> & Hs1 & Hne1 & He1).
    inversion_clear Hp as [|? ? [Hc1 Hc2] Hp'].
    rewrite zlen_cons in Hlen, Hf. pose proof (zlen_nonneg s).
    assert (Hc : c =? LF = false) by (unfold LF; lia). rewrite Hc.
    rewrite zlen_app. change (zlen [c]) with 1.
    destruct (33 <=? zlen acc + 1) eqn:E; [lia|]. cbn [orb].
    destruct (IH s rest t1 (acc ++ [c])) as (t2 & E2 & Hs2 & Hne2 & He2); try assumption.
    + rewrite zlen_app. change (zlen [c]) with 1. lia.
    + lia.
    + exists t2. rewrite E2, He2. rewrite <- app_assoc. cbn [app]. auto.
Qed.

Lemma read_chunk_len_ok b t sz n rest : size_text sz n -> nonempty_chunks (t_chunks t) ->
  t_stream t = sz ++ [13; 10] ++ rest ->
  exists t1, read_chunk_len b t =
      (Ok tt, mkhb (hb_chunked b) (hb_cl b) (hb_eof b) (hb_nread b) n n, t1) /\
    t_stream t1 = rest /\ nonempty_chunks (t_chunks t1) /\ t_err t1 = t_err t.
Proof.
  intros Hsz Hne Hst. destruct (size_text_plain sz n Hsz) as (Hp & Hl & Hnn & Hn).
  unfold read_chunk_len.
  destruct (size_line_crlf 34 sz rest t [] Hp Hne Hst) as (t1 & -> & Hs1 & Hne1 & He1).
  { change (zlen (@nil Z)) with 0. lia. }
  { change (Z.of_nat 34) with 34. lia. }
  cbn [app]. unfold size_of_line. rewrite zlen_app. change (zlen [13; 10]) with 2.
  replace (zlen sz + 2 - 1) with (zlen sz + 1) by lia. replace (zlen sz + 2 - 2) with (zlen sz) by lia.
  pose proof (zlen_nonneg sz).
  rewrite (nthz_app_r sz [13; 10] (zlen sz + 1)) by lia.
  rewrite (nthz_app_r sz [13; 10] (zlen sz)) by lia.
  replace (zlen sz + 1 - zlen sz) with 1 by lia. rewrite Z.sub_diag.
  change (nthz [13; 10] 1) with (Some 10). change (nthz [13; 10] 0) with (Some 13).
  cbn [of_opt bind]. change (negb (10 =? LF)) with false. change (negb (13 =? CR)) with false.
  destruct (zlen sz + 2 <? 2) eqn:E; [lia|]. cbn iota.
  rewrite take_app_exact by reflexivity. rewrite (size_text_strtoul sz n Hsz). exists t1. auto.
Qed.

(** ** Chunked decoding *)
(** What is still to be delivered in a given state. *)
Definition ch_inv (b : hbody) (t : transport) (body rest : list Z) : Prop :=
  hb_chunked b = true /\ hb_eof b = false /\ nonempty_chunks (t_chunks t) /\
  ((hb_left b = 0 /\ chunked (t_stream t) body rest) \/
   (exists d s body', 0 < zlen d < 2 ^ 64 /\ hb_left b = zlen d /\ hb_size b <> 0 /\
      t_stream t = d ++ [13; 10] ++ s /\ chunked s body' rest /\ body = d ++ body')).
Definition ch_done (b : hbody) (t : transport) (rest : list Z) : Prop :=
  hb_eof b = true /\ t_stream t = rest /\ nonempty_chunks (t_chunks t).

(** A data reader (either class) on the rest of a chunk. *)
Definition data_ok (data : hbody -> transport -> Z -> res (list Z) * hbody * transport) : Prop :=
  (forall b t d s size, nonempty_chunks (t_chunks t) -> 0 < zlen d < 2 ^ 64 -> hb_left b = zlen d ->
     hb_size b <> 0 -> t_stream t = d ++ [13; 10] ++ s -> 0 < size ->
     exists x d2 b1 t1, data b t size = (Ok x, b1, t1) /\ x <> [] /\ d = x ++ d2 /\
       nonempty_chunks (t_chunks t1) /\ hb_left b1 = zlen d2 /\ hb_size b1 = hb_size b /\
       hb_chunked b1 = hb_chunked b /\ hb_eof b1 = hb_eof b /\
       t_stream t1 = (if zlen d2 =? 0 then s else d2 ++ [13; 10] ++ s)) /\
  (forall b t s size, nonempty_chunks (t_chunks t) -> 0 <= size -> hb_left b = 0 -> hb_size b = 0 ->
     t_stream t = [13; 10] ++ s ->
     exists b1 t1, data b t size = (Ok [], b1, t1) /\ hb_eof b1 = true /\ t_stream t1 = s /\
       nonempty_chunks (t_chunks t1)).

Lemma chunk_tail_end b t d s : nonempty_chunks (t_chunks t) -> hb_left b = 0 ->
  t_stream t = [13; 10] ++ s ->
  exists t1, chunk_tail b t d = (Ok d, (if hb_size b =? 0 then hb_set_eof b else b), t1) /\
    t_stream t1 = s /\ nonempty_chunks (t_chunks t1).
Proof.
  intros Hne Hl Hst. unfold chunk_tail. rewrite Hl. cbn [Z.eqb].
  destruct (read_fully_ok t 2 Hne ltac:(lia)) as [A _].
  destruct A as (t1 & -> & Hs1 & Hne1 & _).
  { rewrite Hst, zlen_app. change (zlen [13; 10]) with 2. pose proof (zlen_nonneg s). lia. }
  rewrite Hst in Hs1 |- *. rewrite take_app_exact by reflexivity. rewrite drop_app_exact in Hs1 by reflexivity.
  change (eqb_list [13; 10] crlf) with true. cbn iota. exists t1. auto.
Qed.

Lemma chunk_tail_mid b t d : hb_left b <> 0 -> hb_size b <> 0 -> chunk_tail b t d = (Ok d, b, t).
Proof.
  intros Hl Hs. unfold chunk_tail. destruct (hb_left b =? 0) eqn:E; [lia|].
  destruct (hb_size b =? 0) eqn:E2; [lia|reflexivity].
Qed.

Lemma data_finish b t x d2 s : nonempty_chunks (t_chunks t) -> hb_size b <> 0 -> hb_left b = zlen d2 ->
  t_stream t = d2 ++ [13; 10] ++ s ->
  exists t1, chunk_tail b t x = (Ok x, b, t1) /\ nonempty_chunks (t_chunks t1) /\
    t_stream t1 = (if zlen d2 =? 0 then s else d2 ++ [13; 10] ++ s).
Proof.
  intros Hne Hs Hl Hst. destruct (zlen d2 =? 0) eqn:E.
  - assert (d2 = []) as -> by (apply zlen_0_nil; lia). cbn [app] in Hst.
    destruct (chunk_tail_end b t x s Hne) as (t1 & -> & Hs1 & Hne1); [exact Hl|exact Hst|].
    destruct (hb_size b =? 0) eqn:E2; [lia|]. exists t1. auto.
  - rewrite chunk_tail_mid by lia. exists t. auto.
Qed.

Lemma rq_data_ok : data_ok rq_data.
Proof.
  split.
  - intros b t d s size Hne Hd Hl Hsz Hst Hsize. unfold rq_data.
    destruct (hb_size b =? 0) eqn:E; [lia|].
    destruct (t_read_ok t (Z.min (hb_left b) size) Hne) as [[Hn _]|(x & t1 & -> & Hx & Hxl & Hst1 & Hne1 & He1)]; [lia| |].
    { exfalso. assert (t_stream t = []) as Hz by (unfold t_stream; rewrite Hn; reflexivity).
      rewrite Hz in Hst. symmetry in Hst. apply app_eq_nil in Hst as [-> _].
      change (zlen (@nil Z)) with 0 in Hd. lia. }
    assert (Hdx : d = x ++ drop (zlen x) d).
    { assert (Hx' : x = take (zlen x) d).
      { rewrite Hst in Hst1. apply (f_equal (take (zlen x))) in Hst1.
        rewrite take_app_le, take_app_exact in Hst1 by lia. symmetry; exact Hst1. }
      rewrite Hx' at 1. symmetry. apply take_drop. }
    set (d2 := drop (zlen x) d) in *. pose proof (zlen_nonneg x). pose proof (zlen_nonneg d2).
    assert (Hld : zlen d = zlen x + zlen d2) by (rewrite Hdx, zlen_app; reflexivity).
    destruct (data_finish (hb_set_left b (u64 (hb_left b - zlen x))) t1 x d2 s) as (t2 & E2 & Hne2 & Hs2).
    + exact Hne1.
    + exact Hsz.
    + cbn [hb_left hb_set_left]. unfold u64. rewrite Z.mod_small; lia.
    + rewrite Hst, Hdx in Hst1. rewrite <- app_assoc in Hst1. apply app_inv_head in Hst1. symmetry; exact Hst1.
    + rewrite E2. exists x, d2, (hb_set_left b (u64 (hb_left b - zlen x))), t2.
      split; [reflexivity|]. split; [exact Hx|]. split; [exact Hdx|]. split; [exact Hne2|].
      split; [cbn [hb_left hb_set_left]; unfold u64; rewrite Z.mod_small; lia|].
      split; [reflexivity|]. split; [reflexivity|]. split; [reflexivity|exact Hs2].
  - intros b t s size Hne Hge Hl Hsz Hst. unfold rq_data. rewrite Hsz. cbn [Z.eqb].
    destruct (chunk_tail_end b t [] s Hne Hl Hst) as (t1 & -> & Hs1 & Hne1).
    rewrite Hsz. cbn [Z.eqb]. exists (hb_set_eof b), t1. auto.
Qed.

Lemma up_data_ok : data_ok up_data.
Proof.
  split.
  - intros b t d s size Hne Hd Hl Hsz Hst Hsize. unfold up_data.
    set (k := Z.min (hb_left b) size). assert (Hk : 0 < k <= zlen d) by (unfold k; lia).
    destruct (k =? 0) eqn:E; [lia|].
    destruct (read_fully_ok t k Hne ltac:(lia)) as [A _].
    destruct A as (t1 & -> & Hs1 & Hne1 & _).
    { rewrite Hst, zlen_app. pose proof (zlen_nonneg ([13; 10] ++ s)). lia. }
    rewrite Hst in Hs1 |- *. rewrite take_app_le by lia. rewrite drop_app_le in Hs1 by lia.
    assert (Hl2 : zlen (drop k d) = zlen d - k) by (rewrite zlen_drop by lia; lia).
    destruct (data_finish (hb_set_left b (u64 (hb_left b - k))) t1 (take k d) (drop k d) s) as (t2 & E2 & Hne2 & Hs2).
    + exact Hne1.
    + exact Hsz.
    + cbn [hb_left hb_set_left]. unfold u64. rewrite Z.mod_small; lia.
    + exact Hs1.
    + rewrite E2. exists (take k d), (drop k d), (hb_set_left b (u64 (hb_left b - k))), t2.
      split; [reflexivity|].
      split; [intros Hz; apply (f_equal zlen) in Hz; rewrite zlen_take in Hz by lia;
              change (zlen (@nil Z)) with 0 in Hz; lia|].
      split; [symmetry; apply take_drop|]. split; [exact Hne2|].
      split; [cbn [hb_left hb_set_left]; unfold u64; rewrite Z.mod_small; lia|].
      split; [reflexivity|]. split; [reflexivity|]. split; [reflexivity|exact Hs2].
  - intros b t s size Hne Hge Hl Hsz Hst. unfold up_data. rewrite Hl.
    destruct (Z.min 0 size =? 0) eqn:E.
    + destruct (chunk_tail_end (hb_set_left b (u64 (0 - Z.min 0 size))) t [] s Hne) as (t1 & -> & Hs1 & Hne1).
      * cbn [hb_left hb_set_left]. assert (Z.min 0 size = 0) as -> by lia. reflexivity.
      * exact Hst.
      * cbn [hb_size hb_set_left]. rewrite Hsz. cbn [Z.eqb]. eexists _, t1. split; [reflexivity|]. auto.
    + lia.
Qed.

(** One read. *)
Lemma hb_read_chunked data b t size body rest : data_ok data -> ch_inv b t body rest -> 0 < size ->
  exists x b1 t1, hb_read data b t size = (Ok x, b1, t1) /\
    ((x = [] /\ body = [] /\ ch_done b1 t1 rest) \/
     (x <> [] /\ zlen x < 2 ^ 64 /\ exists body', body = x ++ body' /\ ch_inv b1 t1 body' rest)).
Proof.
  intros [D1 D2] (Hch & Heof & Hne & Hcase) Hsize. unfold hb_read. rewrite Heof, Hch.
  assert (Hmid : forall b0 t0 d s body0, hb_chunked b0 = true -> hb_eof b0 = false ->
    nonempty_chunks (t_chunks t0) -> 0 < zlen d < 2 ^ 64 -> hb_left b0 = zlen d -> hb_size b0 <> 0 ->
    t_stream t0 = d ++ [13; 10] ++ s -> chunked s body0 rest -> body = d ++ body0 ->
    exists x b1 t1, data b0 t0 size = (Ok x, b1, t1) /\
    ((x = [] /\ body = [] /\ ch_done b1 t1 rest) \/
     (x <> [] /\ zlen x < 2 ^ 64 /\ exists body', body = x ++ body' /\ ch_inv b1 t1 body' rest))).
  { intros b0 t0 d s body0 Hc0 He0 Hn0 Hd0 Hl0 Hs0 Hst0 Hck Hb0.
    destruct (D1 b0 t0 d s size Hn0 Hd0 Hl0 Hs0 Hst0 Hsize)
      as (x & d2 & b1 & t1 & -> & Hx & Hdx & Hn1 & Hl1 & Hs1 & Hc1 & He1 & Hst1).
    exists x, b1, t1. split; [reflexivity|]. right. split; [exact Hx|].
    split; [rewrite Hdx, zlen_app in Hd0; pose proof (zlen_nonneg d2); lia|].
    exists (d2 ++ body0). split; [rewrite Hb0, Hdx, app_assoc; reflexivity|].
    split; [congruence|]. split; [congruence|]. split; [exact Hn1|].
    pose proof (zlen_nonneg x). pose proof (zlen_nonneg d2).
    assert (zlen d = zlen x + zlen d2) by (rewrite Hdx, zlen_app; reflexivity).
    destruct (zlen d2 =? 0) eqn:E.
    - left. assert (d2 = []) as -> by (apply zlen_0_nil; lia). cbn [app].
      rewrite Hst1. split; [rewrite Hl1; reflexivity|exact Hck].
    - right. exists d2, s, body0. split; [lia|]. split; [exact Hl1|]. split; [congruence|].
      split; [exact Hst1|]. split; [exact Hck|reflexivity]. }
  unfold read_chunked. destruct Hcase as [[Hl Hck]|(d & s & body' & Hd & Hl & Hs & Hst & Hck & Hb)].
  - rewrite Hl. cbn [Z.eqb]. inversion Hck as [sz r Hsz Eq1 Eq2 Eq3|sz d s b0 r Hsz Hdn Hck0 Eq1 Eq2 Eq3]; subst.
    + destruct (read_chunk_len_ok b t sz 0 ([13; 10] ++ rest) Hsz Hne (eq_sym Eq1)) as (t1 & -> & Hs1 & Hn1 & _).
      destruct (D2 (mkhb (hb_chunked b) (hb_cl b) (hb_eof b) (hb_nread b) 0 0) t1 rest size)
        as (b2 & t2 & -> & He2 & Hs2 & Hn2); try assumption; try reflexivity; [lia|].
      exists [], b2, t2. split; [reflexivity|]. left. split; [reflexivity|]. split; [reflexivity|].
      split; [exact He2|]. split; [exact Hs2|exact Hn2].
    + destruct (read_chunk_len_ok b t sz (zlen d) (d ++ [13; 10] ++ s) Hsz Hne (eq_sym Eq1)) as (t1 & -> & Hs1 & Hn1 & _).
      destruct (size_text_plain _ _ Hsz) as (_ & _ & _ & Hrange).
      assert (0 < zlen d).
      { destruct d; [congruence|]. rewrite zlen_cons. pose proof (zlen_nonneg d). lia. }
      eapply (Hmid _ t1 d s b0); cbn [hb_chunked hb_eof hb_left hb_size]; try assumption; try reflexivity; lia.
  - destruct (hb_left b =? 0) eqn:E; [lia|]. eapply (Hmid b t d s body'); eassumption.
Qed.

(** A run of reads. *)
Lemma hb_run_chunked data : data_ok data -> forall sizes b t body rest,
  Forall (fun n => 0 < n) sizes ->
  (ch_inv b t body rest \/ (ch_done b t rest /\ body = [])) ->
  exists ds e b2 t2 more, hb_run data b t sizes = (ds, e, b2, t2) /\ body = concat ds ++ more /\
    (e = Ok tt \/ e = Err ERROR_HTTP_RES_EOF /\ more = [] /\ t_stream t2 = rest) /\
    (ch_inv b t body rest -> zlen body + 1 < zlen sizes -> e = Err ERROR_HTTP_RES_EOF).
Proof.
  intros Hdata. induction sizes as [|n ns IH]; intros b t body rest Hpos Hst.
  - exists [], (Ok tt), b, t, body. split; [reflexivity|]. split; [reflexivity|]. split; [left; reflexivity|].
    intros _ Hx. change (zlen (@nil Z)) with 0 in Hx. pose proof (zlen_nonneg body). lia.
  - inversion_clear Hpos as [|? ? Hn Hns]. cbn [hb_run]. destruct Hst as [Hinv|[Hdone ->]].
    + destruct (hb_read_chunked data b t n body rest Hdata Hinv Hn) as (x & b1 & t1 & -> & [(-> & -> & Hdn)|(Hx & _ & body' & -> & Hinv')]).
      * assert (Heof : forall m, hb_read data b1 t1 m = (Err ERROR_HTTP_RES_EOF, b1, t1)).
        { intros m. unfold hb_read. destruct Hdn as (-> & _). reflexivity. }
        destruct ns as [|m ms].
        -- exists [[]], (Ok tt), b1, t1, []. split; [reflexivity|]. split; [reflexivity|]. split; [left; reflexivity|].
           intros _ Hlen. change (zlen [n]) with 1 in Hlen. change (zlen (@nil Z)) with 0 in Hlen. lia.
        -- exists [[]], (Err ERROR_HTTP_RES_EOF), b1, t1, []. cbn [hb_run]. rewrite Heof.
           split; [reflexivity|]. split; [reflexivity|]. destruct Hdn as (_ & Hr & _). split; [right; auto|auto].
      * destruct (IH b1 t1 body' rest Hns (or_introl Hinv')) as (ds & e & b2 & t2 & more & -> & Hb & He & Hl).
        exists (x :: ds), e, b2, t2, more. split; [reflexivity|]. cbn [concat].
        split; [rewrite Hb, app_assoc; reflexivity|]. split; [exact He|].
        intros _ Hlen. apply Hl; [exact Hinv'|]. rewrite zlen_cons, zlen_app in Hlen.
        assert (0 < zlen x) by (destruct x; [congruence|]; rewrite zlen_cons; pose proof (zlen_nonneg x); lia).
        lia.
    + exists [], (Err ERROR_HTTP_RES_EOF), b, t, []. destruct Hdone as (He & Hs & Hne).
      unfold hb_read. rewrite He. split; [reflexivity|]. split; [reflexivity|]. split; [right; auto|].
      intros (_ & Hf & _). congruence.
Qed.

(** ** Fixed-length bodies *)
Definition fx_inv (n : Z) (b : hbody) (t : transport) (body rest : list Z) : Prop :=
  hb_chunked b = false /\ hb_eof b = false /\ hb_cl b = n /\ 0 <= hb_nread b /\
  zlen body = n - hb_nread b /\ 0 < zlen body /\ n < 2 ^ 31 /\
  nonempty_chunks (t_chunks t) /\ t_stream t = body ++ rest.

Lemma hb_read_fixed data n b t size body rest : fx_inv n b t body rest -> 0 < size ->
  exists x b1 t1 body', hb_read data b t size = (Ok x, b1, t1) /\ x <> [] /\ zlen x <= size /\
    body = x ++ body' /\
    ((body' = [] /\ hb_eof b1 = true /\ t_stream t1 = rest) \/ fx_inv n b1 t1 body' rest).
Proof.
  intros (Hch & Heof & Hcl & Hnr & Hlb & Hpos & Hn31 & Hne & Hst) Hsize.
  unfold hb_read. rewrite Hch, Heof, Hcl. destruct (0 <=? n) eqn:E; [|lia].
  assert (Hu : u64 (n - hb_nread b) = zlen body) by (unfold u64; rewrite Z.mod_small; lia).
  assert (Hu2 : u64 n = n) by (unfold u64; rewrite Z.mod_small; lia).
  rewrite Hu. destruct (t_read_ok t (Z.min (zlen body) size) Hne)
    as [[Hn0 _]|(x & t1 & -> & Hx & Hxl & Hst1 & Hne1 & He1)]; [lia| |].
  { exfalso. assert (t_stream t = []) as Hz by (unfold t_stream; rewrite Hn0; reflexivity).
    rewrite Hz in Hst. symmetry in Hst. apply app_eq_nil in Hst as [-> _]. cbn in Hpos. lia. }
  assert (Hx' : x = take (zlen x) body).
  { rewrite Hst in Hst1. apply (f_equal (take (zlen x))) in Hst1.
    rewrite take_app_le, take_app_exact in Hst1 by lia. symmetry; exact Hst1. }
  assert (Hdx : body = x ++ drop (zlen x) body) by (rewrite Hx' at 1; symmetry; apply take_drop).
  set (body' := drop (zlen x) body) in *. pose proof (zlen_nonneg body').
  assert (Hxp : 0 < zlen x) by (destruct x; [congruence|]; rewrite zlen_cons; pose proof (zlen_nonneg x); lia).
  assert (Hld : zlen body = zlen x + zlen body') by (rewrite Hdx, zlen_app; reflexivity).
  assert (Hs1 : t_stream t1 = body' ++ rest).
  { rewrite Hst, Hdx, <- app_assoc in Hst1. apply app_inv_head in Hst1. symmetry; exact Hst1. }
  rewrite Hu2.
  eexists x, _, t1, body'. split; [reflexivity|]. split; [exact Hx|]. split; [lia|]. split; [exact Hdx|].
  destruct (Z.eq_dec (zlen body') 0) as [Hz|Hz].
  - left. assert (body' = []) as Hb by (apply zlen_0_nil; exact Hz). rewrite Hb in *.
    split; [reflexivity|]. cbn [hb_eof]. split; [|exact Hs1]. apply Z.leb_le. lia.
  - right. unfold fx_inv. cbn [hb_chunked hb_eof hb_cl hb_nread].
    split; [reflexivity|]. split; [apply Z.leb_gt; lia|]. split; [reflexivity|]. split; [lia|].
    split; [lia|]. split; [lia|]. split; [exact Hn31|]. split; [exact Hne1|exact Hs1].
Qed.

Lemma hb_run_fixed data n : forall sizes b t body rest,
  Forall (fun k => 0 < k) sizes -> fx_inv n b t body rest ->
  exists ds e b2 t2 more, hb_run data b t sizes = (ds, e, b2, t2) /\ body = concat ds ++ more /\
    (e = Ok tt \/ e = Err ERROR_HTTP_RES_EOF /\ more = [] /\ t_stream t2 = rest) /\
    (zlen body < zlen sizes -> e = Err ERROR_HTTP_RES_EOF).
Proof.
  induction sizes as [|k ns IH]; intros b t body rest Hpos Hinv.
  - exists [], (Ok tt), b, t, body. split; [reflexivity|]. split; [reflexivity|]. split; [left; reflexivity|].
    intros Hx. change (zlen (@nil Z)) with 0 in Hx. pose proof (zlen_nonneg body). lia.
  - inversion_clear Hpos as [|? ? Hn Hns]. cbn [hb_run].
    destruct (hb_read_fixed data n b t k body rest Hinv Hn)
      as (x & b1 & t1 & body' & -> & Hx & _ & -> & [(-> & He & Hs)|Hinv']).
    + assert (Heof : forall m, hb_read data b1 t1 m = (Err ERROR_HTTP_RES_EOF, b1, t1)).
      { intros m. unfold hb_read. rewrite He. reflexivity. }
      destruct ns as [|m ms].
      * exists [x], (Ok tt), b1, t1, []. split; [reflexivity|]. cbn [concat]. rewrite !app_nil_r.
        split; [reflexivity|]. split; [left; reflexivity|].
        intros Hlen. change (zlen [k]) with 1 in Hlen.
        destruct x; [congruence|]; rewrite zlen_cons in Hlen; pose proof (zlen_nonneg x); lia.
      * exists [x], (Err ERROR_HTTP_RES_EOF), b1, t1, []. cbn [hb_run]. rewrite Heof. cbn [concat].
        rewrite !app_nil_r. split; [reflexivity|]. split; [reflexivity|]. split; [right; auto|auto].
    + destruct (IH b1 t1 body' rest Hns Hinv') as (ds & e & b2 & t2 & more & -> & Hb & He & Hl).
      exists (x :: ds), e, b2, t2, more. split; [reflexivity|]. cbn [concat].
      split; [rewrite Hb, app_assoc; reflexivity|]. split; [exact He|].
      intros Hlen. apply Hl. rewrite zlen_cons, zlen_app in Hlen.
      assert (0 < zlen x) by (destruct x; [congruence|]; rewrite zlen_cons; pose proof (zlen_nonneg x); lia).
      lia.
Qed.
