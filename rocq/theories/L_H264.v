From Verif Require Import Base M_Bits S_Bits L_Bits L_BitsW M_Fields L_Align M_Packet M_H264 M_AAC S_Codec.

(** Pure version of find_start_code. *)
Fixpoint fsc (l : list Z) : option Z :=
  match l with
  | a :: t =>
      match t with
      | b :: c :: _ :: _ =>
          if (a =? 0) && (b =? 0) && (c =? 1) then Some 0 else option_map (Z.add 1) (fsc t)
      | _ => None
      end
  | [] => None
  end.

Lemma fsc_unfold a t : fsc (a :: t) =
  match t with
  | b :: c :: _ :: _ =>
      if (a =? 0) && (b =? 0) && (c =? 1) then Some 0 else option_map (Z.add 1) (fsc t)
  | _ => None
  end.
Proof. reflexivity. Qed.

Lemma fsc_short l : zlen l <= 3 -> fsc l = None.
Proof.
  destruct l as [|a [|b [|c [|d l]]]]; try reflexivity.
  rewrite !zlen_cons. pose proof (zlen_nonneg l). lia.
Qed.

Lemma find_start_code_fsc fuel : forall mem off sz, 0 <= off -> 0 <= sz -> off + sz = zlen mem ->
  sz <= Z.of_nat fuel ->
  find_start_code fuel mem off sz = Ok (option_map (Z.add off) (fsc (drop off mem))).
Proof.
  induction fuel as [|f IH]; intros mem off sz Ho Hs He Hf; cbn [find_start_code].
  - replace (sz <=? 3) with true by lia. rewrite fsc_short by (rewrite zlen_drop; lia). reflexivity.
  - destruct (Z.leb_spec sz 3).
    + rewrite fsc_short by (rewrite zlen_drop; lia). reflexivity.
    + destruct (nthz_in_range mem off) as [a Ea]; [lia|].
      destruct (nthz_in_range mem (off + 1)) as [b Eb]; [lia|].
      destruct (nthz_in_range mem (off + 2)) as [c Ec]; [lia|].
      destruct (nthz_in_range mem (off + 3)) as [d Ed]; [lia|].
      rewrite Ea, Eb, Ec. cbn [of_opt bind].
      rewrite IH by lia.
      rewrite (drop_nth _ _ _ Ea). rewrite fsc_unfold. rewrite (drop_nth _ _ _ Eb).
      replace (off + 1 + 1) with (off + 2) in * by lia. rewrite (drop_nth _ _ _ Ec).
      replace (off + 2 + 1) with (off + 3) in * by lia. rewrite (drop_nth _ _ _ Ed).
      destruct ((a =? 0) && (b =? 0) && (c =? 1)).
      * cbn [option_map]. rewrite Z.add_0_r. reflexivity.
      * destruct (fsc _); cbn [option_map]; [|reflexivity]. f_equal. f_equal. lia.
Qed.

Lemma fsc_some l : forall k, fsc l = Some k ->
  exists a x b, l = a ++ [0; 0; 1] ++ x :: b /\ zlen a = k /\
    forall u y v, l = u ++ [0; 0; 1] ++ y :: v -> zlen a <= zlen u.
Proof.
  induction l as [|a t IH]; intros k H; [discriminate|].
  rewrite fsc_unfold in H. destruct t as [|b [|c [|d l]]]; try discriminate.
  destruct ((a =? 0) && (b =? 0) && (c =? 1)) eqn:E.
  - injection H as <-. exists [], d, l. split.
    + assert (a = 0) by lia. assert (b = 0) by lia. assert (c = 1) by lia. subst. reflexivity.
    + split; [reflexivity|]. intros u y v _. rewrite zlen_nil. apply zlen_nonneg.
  - destruct (fsc (b :: c :: d :: l)) as [j|] eqn:Ej; [|discriminate].
    assert (k = 1 + j) by (cbn [option_map] in H; congruence). subst k.
    destruct (IH j eq_refl) as (p & x & q & El & Hl & Hmin).
    exists (a :: p), x, q. split; [cbn [app]; rewrite El; reflexivity|].
    split; [rewrite zlen_cons; lia|].
    intros u y v Hu. destruct u as [|u0 u].
    + cbn [app] in Hu. injection Hu as -> -> -> _. discriminate.
    + cbn [app] in Hu. injection Hu as -> Hu. apply Hmin in Hu. rewrite !zlen_cons. lia.
Qed.

Lemma fsc_none l : fsc l = None -> no_inner_start_code l.
Proof.
  induction l as [|a t IH]; intros H u x v E.
  - destruct u; discriminate.
  - rewrite fsc_unfold in H. destruct u as [|u0 u].
    + cbn [app] in E. injection E as -> ->. discriminate.
    + cbn [app] in E. injection E as -> Et.
      assert (H2 : fsc t = None).
      { destruct t as [|b [|c [|d l]]]; try reflexivity.
        destruct ((u0 =? 0) && (b =? 0) && (c =? 1)); [discriminate|].
        destruct (fsc (b :: c :: d :: l)); [discriminate|reflexivity]. }
      exact (IH H2 u x v Et).
Qed.

(** Where the first start code of [a ++ 00 00 01 ++ x :: b] is. *)
Lemma fsc_first a x b : no_start_code a -> fsc (a ++ [0; 0; 1] ++ x :: b) = Some (zlen a).
Proof.
  intros Ha. destruct (fsc (a ++ [0; 0; 1] ++ x :: b)) as [k|] eqn:E.
  - destruct (fsc_some _ _ E) as (p & y & q & El & Hl & Hmin). f_equal. rewrite <- Hl.
    assert (H1 : zlen p <= zlen a) by (apply (Hmin _ _ _ eq_refl)).
    destruct (Z.eq_dec (zlen p) (zlen a)); [assumption|exfalso].
    (* p strictly shorter: the occurrence starts inside a *)
    assert (Ha2 : a = p ++ drop (zlen p) a).
    { assert (F := f_equal (take (zlen p)) El). rewrite take_app_le in F by lia.
      rewrite take_app_exact in F by reflexivity. rewrite <- F at 1. symmetry. apply take_drop. }
    set (s := drop (zlen p) a) in *.
    assert (Hs : zlen s = zlen a - zlen p) by (unfold s; rewrite zlen_drop by apply zlen_nonneg; lia).
    rewrite Ha2, <- app_assoc in El. apply app_inv_head in El.
    destruct s as [|s0 [|s1 [|s2 s]]].
    + rewrite zlen_nil in Hs. lia.
    + cbn [app] in El. injection El as -> E1 E2. discriminate.
    + cbn [app] in El. injection El as -> -> E2. discriminate.
    + cbn [app] in El. injection El as -> -> -> _. apply (Ha p s). exact Ha2.
  - exfalso. exact (fsc_none _ E a x b eq_refl).
Qed.

(** ** parse_nal *)
Lemma nal_fields h : byte h -> bit_fields (byte_bits h) [1; 2; 5] = [h / 128; h / 32 mod 4; h mod 32].
Proof.
  intros Hh. apply eqb_list_spec. revert h Hh.
  apply (byte_sweep (fun h => eqb_list (bit_fields (byte_bits h) [1; 2; 5]) [h / 128; h / 32 mod 4; h mod 32])).
  vm_compute. reflexivity.
Qed.
Lemma parse_nal_cases b : bytes b -> parse_nal b =
  match b with
  | [] => Err ERROR_H264_DECODER
  | h :: _ => if h <? 128 then Ok (mknal 0 (h / 32) (h mod 32) b) else Err ERROR_H264_DECODER
  end.
Proof.
  intros Hb. unfold parse_nal. destruct b as [|h t]; [reflexivity|].
  rewrite zlen_cons. pose proof (zlen_nonneg t). replace (1 + zlen t <? 1) with false by lia.
  apply bytes_cons in Hb as [Hh Ht].
  rewrite take_cons by lia. change (1 - 1) with 0. rewrite take_0 by lia.
  assert (Hal : al [h] (bc_init [h]) [h]) by (apply al_init; [constructor; [assumption|constructor]|reflexivity]).
  destruct (al_fields _ _ _ [1; 2; 5] 1 Hal) as (c' & -> & _); [reflexivity|reflexivity|unfold zlen; cbn; lia|].
  cbn [bind fst]. change (bits_of [h]) with (byte_bits h ++ []). rewrite app_nil_r.
  rewrite nal_fields by assumption. unfold byte in Hh.
  destruct (Z.ltb_spec h 128).
  - rewrite Z.div_small by lia. cbn [Z.eqb]. f_equal. f_equal. rewrite Z.mod_small; [reflexivity|].
    zify_divmod. lia.
  - replace (h / 128 =? 0) with false; [reflexivity|]. zify_divmod. lia.
Qed.

(** ** One round of the splitting loop *)
Notation mk := nal_of.
Lemma parse_ok b : bytes b -> nal_ok b -> parse_nal b = Ok (mk b).
Proof.
  intros Hb (h & t & -> & Hh). rewrite parse_nal_cases by assumption.
  destruct (Z.ltb_spec h 128); [reflexivity|lia].
Qed.

Definition round_spec (rest : list Z) : option (list Z * list Z) :=
  match fsc rest with
  | None => None
  | Some k =>
      let r1 := drop (k + 3) rest in
      match fsc (drop (k + 1) rest) with
      | Some e => Some (take (e - 2) r1, drop (e - 2) r1)
      | None => Some (r1, [])
      end
  end.

Lemma second_code a x b j : fsc (drop (zlen a + 1) (a ++ [0; 0; 1] ++ x :: b)) = j ->
  j = option_map (Z.add 2) (fsc (x :: b)).
Proof.
  intros <-. rewrite drop_app_ge by lia. replace (zlen a + 1 - zlen a) with 1 by lia.
  cbn [app]. rewrite drop_cons by lia. change (1 - 1) with 0. rewrite drop_0 by lia.
  destruct b as [|y b]; [reflexivity|]. 
  rewrite fsc_unfold. change ((0 =? 0) && (1 =? 0) && (x =? 1)) with false. cbn iota.
  destruct b as [|z b]; [reflexivity|].
  rewrite (fsc_unfold 1). change ((1 =? 0) && (x =? 0) && (y =? 1)) with false. cbn iota.
  destruct (fsc (x :: y :: z :: b)); cbn [option_map]; [f_equal; lia|reflexivity].
Qed.

Lemma decode_round f buf c rest : al buf c rest -> zlen buf < 2 ^ 29 -> 4 <= zlen rest ->
  match fsc rest with
  | None => decode_data (S f) c = Err ERROR_H264_DECODER
  | Some k => exists a x b n r, rest = a ++ [0; 0; 1] ++ x :: b /\ zlen a = k /\
      (forall u y v, rest = u ++ [0; 0; 1] ++ y :: v -> zlen a <= zlen u) /\
      x :: b = n ++ r /\ no_inner_start_code n /\ bytes n /\
      ((r = [] /\ fsc (x :: b) = None) \/ (fsc (x :: b) = Some (zlen n) /\ exists y v, r = [0; 0; 1] ++ y :: v)) /\
      exists c', al buf c' r /\
        decode_data (S f) c = let? n := parse_nal n in let? ns := decode_data f c' in Ok (n :: ns)
  end.
Proof.
  intros Hal Hbuf H4. cbn [decode_data].
  rewrite (al_acquire_ok _ _ _ _ Hal) by lia.
  pose proof (al_len _ _ _ Hal) as HL. pose proof (al_bytes _ _ _ Hal) as Hby.
  assert (Hal' := Hal). destruct Hal' as (Hb & Hl & Eb & Er & Hv & Hp & Erest).
  rewrite (al_size _ _ _ Hal).
  assert (Eoff : bc_off c = bc_pos c + 1) by (unfold bc_off; rewrite Er; reflexivity).
  rewrite Eoff, Eb.
  rewrite find_start_code_fsc by lia. rewrite <- Erest. cbn [bind].
  destruct (fsc rest) as [k|] eqn:Ek; cbn [option_map bind]; [|reflexivity].
  destruct (fsc_some _ _ Ek) as (a & x & b & El & Ha & Hmin).
  assert (HLr : zlen rest = k + 4 + zlen b) by (rewrite El, !zlen_app, !zlen_cons, zlen_nil; lia).
  pose proof (zlen_nonneg a) as Ha0. pose proof (zlen_nonneg b) as Hb0.
  rewrite find_start_code_fsc by lia.
  assert (Ed : drop (bc_pos c + 1 + k + 1) buf = drop (k + 1) rest).
  { rewrite Erest, drop_drop by lia. f_equal; lia. }
  rewrite Ed. cbn [bind].
  assert (E2 := second_code a x b _ eq_refl). rewrite <- El, Ha in E2. rewrite E2.
  (* skip to just after the start code *)
  destruct (al_skip _ _ _ (bc_pos c + 1 + k - (bc_pos c + 1) + 3) Hal) as (c1 & Es & Hal1); [lia|].
  replace (bc_pos c + 1 + k - (bc_pos c + 1) + 3) with (k + 3) in * by lia.
  assert (Er1 : drop (k + 3) rest = x :: b).
  { rewrite El, drop_app_ge by lia. rewrite Ha. replace (k + 3 - k) with 3 by lia. reflexivity. }
  rewrite Er1 in Hal1.
  destruct (fsc (x :: b)) as [e|] eqn:Ee; cbn [option_map].
  - destruct (fsc_some _ _ Ee) as (n & y & v & En & Hn & Hminn).
    assert (HLn : zlen (x :: b) = e + 4 + zlen v) by (rewrite En, !zlen_app, !zlen_cons, zlen_nil; lia).
    rewrite zlen_cons in HLn. pose proof (zlen_nonneg n). pose proof (zlen_nonneg v).
    replace (bc_pos c + 1 + k + 1 + (2 + e) - (bc_pos c + 1 + k) - 3) with e by lia.
    unfold u64. rewrite (Z.mod_small e) by lia. rewrite Es. cbn [bind].
    unfold u32. rewrite (Z.mod_small e) by lia.
    rewrite (al_acquire_ok _ _ _ _ Hal1) by (rewrite ?zlen_cons; lia).
    rewrite (al_peek _ _ _ _ Hal1) by (rewrite zlen_cons; lia). cbn [bind].
    destruct (al_skip _ _ _ e Hal1) as (c2 & Es2 & Hal2); [rewrite zlen_cons; lia|].
    exists a, x, b, n, ([0; 0; 1] ++ y :: v).
    split; [exact El|]. split; [exact Ha|]. split; [exact Hmin|].
    split; [exact En|].
    assert (Hnb : bytes n).
    { rewrite El, En in Hby. apply bytes_app in Hby as [_ Hby]. apply bytes_app in Hby as [_ Hby].
      apply bytes_app in Hby as [Hby _]. exact Hby. }
    split.
    { intros u w z Hu. rewrite Hu in En.
      specialize (Hminn u w (z ++ [0; 0; 1] ++ y :: v)).
      rewrite En in Hminn. rewrite <- !app_assoc in Hminn. cbn [app] in Hminn.
      specialize (Hminn eq_refl). rewrite Hu, !zlen_app, !zlen_cons, zlen_nil in Hminn.
      pose proof (zlen_nonneg z). lia. }
    split; [exact Hnb|].
    split; [right; split; [rewrite Hn; exact Ee|exists y, v; reflexivity]|].
    exists c2. split.
    + rewrite En, drop_app_exact in Hal2 by lia. exact Hal2.
    + rewrite En, take_app_exact by lia. rewrite Es2. cbn [bind].
      destruct (parse_nal n); reflexivity.
  - assert (Htail : zlen buf - (bc_pos c + 1 + k) - 3 = 1 + zlen b) by lia.
    rewrite Htail. unfold u64. rewrite (Z.mod_small (1 + zlen b)) by lia.
    rewrite Es. cbn [bind]. unfold u32. rewrite (Z.mod_small (1 + zlen b)) by lia.
    rewrite (al_acquire_ok _ _ _ _ Hal1) by (rewrite ?zlen_cons; lia).
    rewrite (al_peek _ _ _ _ Hal1) by (rewrite zlen_cons; lia). cbn [bind].
    destruct (al_skip _ _ _ (1 + zlen b) Hal1) as (c2 & Es2 & Hal2); [rewrite zlen_cons; lia|].
    rewrite take_all by (rewrite zlen_cons; lia). rewrite drop_all in Hal2 by (rewrite zlen_cons; lia).
    exists a, x, b, (x :: b), (@nil Z). rewrite app_nil_r.
    split; [exact El|]. split; [exact Ha|]. split; [exact Hmin|]. split; [reflexivity|].
    split; [apply fsc_none; exact Ee|].
    split; [exact (al_bytes _ _ _ Hal1)|].
    split; [left; split; [reflexivity|exact Ee]|].
    exists c2. split; [exact Hal2|]. rewrite Es2. cbn [bind]. destruct (parse_nal (x :: b)); reflexivity.
Qed.

Lemma decode_stop f buf c rest : al buf c rest -> zlen rest < 4 -> decode_data f c = Ok [].
Proof.
  intros Hal H. destruct f; cbn [decode_data]; rewrite (al_acquire_no _ _ _ _ Hal) by lia; reflexivity.
Qed.

(** ** Totality and soundness *)
Lemma parse_nal_inv b n : bytes b -> parse_nal b = Ok n -> nal_ok b /\ n = mk b.
Proof.
  intros Hb H. rewrite parse_nal_cases in H by assumption. destruct b as [|h t]; [discriminate|].
  apply bytes_cons in Hb as [Hh _]. unfold byte in Hh.
  destruct (Z.ltb_spec h 128); [|discriminate]. injection H as <-.
  split; [exists h, t; split; [reflexivity|lia]|reflexivity].
Qed.
Lemma parse_nal_err b : bytes b -> match parse_nal b with Ok _ => True | Err e => e = ERROR_H264_DECODER | _ => False end.
Proof.
  intros Hb. rewrite parse_nal_cases by assumption. destruct b; [reflexivity|]. destruct (z <? 128); [exact I|reflexivity].
Qed.

Lemma decode_sound f : forall buf c rest, al buf c rest -> zlen buf < 2 ^ 29 -> zlen rest <= Z.of_nat f ->
  match decode_data f c with
  | Ok ns => (zlen rest < 4 /\ ns = []) \/
      (ns <> [] /\ exists lead, no_start_code lead /\ rest = lead ++ flat_map unit_bytes ns /\
       Forall (fun n => nal_ok (n_buf n) /\ no_inner_start_code (n_buf n) /\ n = mk (n_buf n)) ns)
  | Err e => e = ERROR_H264_DECODER
  | _ => False
  end.
Proof.
  induction f as [|f IH]; intros buf c rest Hal Hbuf Hf.
  - rewrite (decode_stop _ _ _ _ Hal) by lia. left. split; [lia|reflexivity].
  - destruct (Z_lt_dec (zlen rest) 4) as [Hs|Hs].
    + rewrite (decode_stop _ _ _ _ Hal) by lia. left. split; [lia|reflexivity].
    + pose proof (decode_round f buf c rest Hal Hbuf ltac:(lia)) as HR.
      destruct (fsc rest) as [k|] eqn:Ek; [|rewrite HR; reflexivity].
      destruct HR as (a & x & b & n & r & El & Ha & Hmin & En & Hin & Hnb & Hr & c' & Hal' & ->).
      pose proof (parse_nal_err n Hnb) as He.
      destruct (parse_nal n) as [m|e| |] eqn:Ep; cbn [bind]; try assumption.
      apply parse_nal_inv in Ep as [Hok Em]; [|assumption].
      assert (Hlen : zlen r <= Z.of_nat f).
      { assert (zlen rest = zlen a + 3 + zlen n + zlen r).
        { rewrite El, En, !zlen_app, !zlen_cons, zlen_nil. lia. }
        pose proof (zlen_nonneg a). pose proof (zlen_nonneg n). lia. }
      specialize (IH buf c' r Hal' Hbuf Hlen).
      assert (Hlead : no_start_code a).
      { intros u v Hu. destruct (v ++ [0; 0; 1] ++ x :: b) as [|y w] eqn:Ev; [destruct v; discriminate|].
        specialize (Hmin u y w). rewrite El, Hu, <- !app_assoc, Ev in Hmin. cbn [app] in Hmin.
        specialize (Hmin eq_refl). rewrite !zlen_app, !zlen_cons in Hmin. pose proof (zlen_nonneg v). lia. }
      destruct (decode_data f c') as [ns|e| |]; cbn [bind]; try assumption.
      right. split; [discriminate|]. exists a. split; [exact Hlead|].
      destruct IH as [[Hr4 ->]|(Hne & lead & Hl & Hrest & HF)].
      * assert (r = []).
        { destruct Hr as [[-> _]|(_ & y & v & ->)]; [reflexivity|].
          exfalso. rewrite zlen_app, !zlen_cons, zlen_nil in Hr4. pose proof (zlen_nonneg v). lia. }
        subst r. rewrite app_nil_r in En. subst n. cbn [flat_map]. rewrite app_nil_r. unfold unit_bytes.
        subst m. cbn [mk n_buf]. split; [exact El|]. constructor; [|constructor]. auto.
      * destruct Hr as [[-> _]|(Hfirst & y & v & ->)].
        { exfalso. destruct ns as [|m0 ns0]; [congruence|]. cbn [flat_map] in Hrest.
          destruct lead; discriminate. }
        assert (lead = []).
        { destruct lead as [|l0 lead]; [reflexivity|exfalso].
          destruct ns as [|m0 ns0]; [congruence|]. inversion HF; subst.
          destruct H1 as ((h0 & t0 & Eh0 & _) & _).
          assert (F := fsc_first (l0 :: lead) h0 (t0 ++ flat_map unit_bytes ns0) Hl).
          assert (F0 : fsc ([0; 0; 1] ++ y :: v) = Some 0) by reflexivity.
          rewrite Hrest in F0. cbn [flat_map] in F0. unfold unit_bytes at 1 in F0.
          rewrite Eh0, <- app_assoc in F0. cbn [app] in F, F0. rewrite F in F0.
          injection F0 as F0. rewrite zlen_cons in F0. pose proof (zlen_nonneg lead). lia. }
        subst lead. cbn [app] in Hrest. cbn [flat_map].
        split.
        { rewrite El. f_equal. unfold unit_bytes at 1. rewrite Em. cbn [mk n_buf].
          rewrite <- app_assoc. f_equal. rewrite En. f_equal. exact Hrest. }
        constructor; [|exact HF]. subst m. cbn [mk n_buf]. auto.
Qed.

(** ** Round trip *)
Lemma no_sc_zeros n k : no_start_code n -> no_start_code (n ++ repeat 0 k).
Proof.
  intros Hn a b E. assert (F := fsc_first n 1 [7]). specialize (F Hn).
  (* count: the occurrence must end inside n, because zeros contain no 1 *)
  destruct (Z_le_dec (zlen a + 3) (zlen n)) as [Hle|Hgt].
  - apply (Hn a (drop (zlen a + 3) n)).
    assert (F1 := f_equal (take (zlen a + 3)) E). rewrite take_app_le in F1 by lia.
    rewrite app_assoc, take_app_exact in F1 by (rewrite zlen_app; reflexivity).
    rewrite <- (take_drop (zlen a + 3) n) at 1. rewrite F1, <- app_assoc. reflexivity.
  - assert (F1 := f_equal (fun l => nthz l (zlen a + 2)) E). cbn beta in F1.
    rewrite nthz_app_r in F1 by lia. rewrite (nthz_app_r a) in F1 by lia.
    replace (zlen a + 2 - zlen a) with 2 in F1 by lia. change (nthz ([0; 0; 1] ++ b) 2) with (Some 1) in F1.
    apply nthz_In, repeat_spec in F1. discriminate.
Qed.

Lemma annexb_cons k n us : annexb ((k, n) :: us) = repeat 0 k ++ [0; 0; 1] ++ n ++ annexb us.
Proof. unfold annexb. cbn [flat_map fst snd]. rewrite <- !app_assoc. reflexivity. Qed.

Lemma annexb_roundtrip0 us : forall k n f buf c lead,
  al buf c (lead ++ [0; 0; 1] ++ n ++ annexb us) -> zlen buf < 2 ^ 29 ->
  zlen (lead ++ [0; 0; 1] ++ n ++ annexb us) <= Z.of_nat f -> no_start_code lead ->
  nal_ok n -> no_start_code n ->
  Forall (fun u => nal_ok (snd u) /\ no_start_code (snd u)) us ->
  decode_data f c = Ok (map mk (units_with_zeros ((k, n) :: us))).
Proof.
  induction us as [|[k2 n2] us IH]; intros k n f buf c lead Hal Hbuf Hf Hlead Hok Hn HF;
    assert (Hok' := Hok); destruct Hok' as (h & t & -> & Hh);
    (destruct f as [|f];
      [exfalso; revert Hf; unfold zlen; rewrite !app_length; cbn [length]; lia|]).
  - cbn [annexb flat_map] in *. rewrite app_nil_r in *.
    pose proof (decode_round f buf c _ Hal Hbuf) as HR.
    assert (Hlen : 4 <= zlen (lead ++ [0; 0; 1] ++ h :: t)).
    { unfold zlen. rewrite !app_length. cbn [length]. lia. }
    specialize (HR Hlen). rewrite (fsc_first lead h t Hlead) in HR.
    destruct HR as (a & x & b & m & r & El & Ha & _ & Em & Hin & Hmb & Hr & c' & Hal' & ->).
    apply app_eq_len in El; [|congruence]. destruct El as [_ El]. apply app_inv_head in El.
    rewrite <- El in *. clear El x b.
    assert (Hnone : fsc (h :: t) = None).
    { destruct (fsc (h :: t)) eqn:E; [|reflexivity]. destruct (fsc_some _ _ E) as (p & y & q & E3 & _).
      exfalso. exact (Hn _ _ E3). }
    destruct Hr as [[-> _]|[Hr _]]; [|congruence]. rewrite app_nil_r in Em. subst m.
    rewrite parse_ok by assumption. cbn [bind].
    rewrite (decode_stop _ _ _ _ Hal') by (change (zlen (@nil Z)) with 0; lia).
    cbn [units_with_zeros map]. rewrite app_nil_r. reflexivity.
  - rewrite annexb_cons in Hal, Hf.
    pose proof (decode_round f buf c _ Hal Hbuf) as HR.
    assert (Hlen : 4 <= zlen (lead ++ [0; 0; 1] ++ (h :: t) ++ repeat 0 k2 ++ [0; 0; 1] ++ n2 ++ annexb us)).
    { unfold zlen. rewrite !app_length. cbn [length]. lia. }
    specialize (HR Hlen). cbn [app] in HR.
    pose proof (fsc_first lead h (t ++ repeat 0 k2 ++ 0 :: 0 :: 1 :: n2 ++ annexb us) Hlead) as Efs.
    cbn [app] in Efs. rewrite Efs in HR.
    destruct HR as (a & x & b & m & r & El & Ha & _ & Em & Hin & Hmb & Hr & c' & Hal' & ->).
    apply app_eq_len in El; [|congruence]. destruct El as [_ El].
    cbn [app] in El. injection El as <- <-.
    inversion HF as [|? ? [Hok2 Hn2] HF2]; subst. cbn [snd] in *.
    assert (Hok2' := Hok2). destruct Hok2' as (h2 & t2 & En2 & Hh2).
    assert (Hn1 : no_start_code ((h :: t) ++ repeat 0 k2)) by (apply no_sc_zeros; assumption).
    pose proof (fsc_first _ h2 (t2 ++ annexb us) Hn1) as Efs2.
    rewrite <- app_assoc in Efs2. cbn [app] in Efs2.
    rewrite En2 in Hr. cbn [app] in Hr. rewrite Efs2 in Hr.
    destruct Hr as [[_ Hr]|[Hr _]]; [discriminate|]. injection Hr as Hr.
    assert (Hm : m = (h :: t) ++ repeat 0 k2 /\ r = [0; 0; 1] ++ n2 ++ annexb us).
    { change (h :: t ++ repeat 0 k2 ++ 0 :: 0 :: 1 :: n2 ++ annexb us)
        with ((h :: t) ++ repeat 0 k2 ++ [0; 0; 1] ++ n2 ++ annexb us) in Em.
      rewrite app_assoc in Em. symmetry in Em. apply app_eq_len in Em; [exact Em|].
      rewrite <- Hr. reflexivity. }
    destruct Hm as [-> ->].
    rewrite parse_ok; [|assumption|exists h, (t ++ repeat 0 k2); split; [reflexivity|assumption]].
    cbn [bind]. change (units_with_zeros ((k, h :: t) :: (k2, n2) :: us))
      with (((h :: t) ++ repeat 0 k2) :: units_with_zeros ((k2, n2) :: us)).
    cbn [map]. rewrite (IH k2 n2 f buf c' []); try assumption; [reflexivity| |].
    + revert Hf. unfold zlen. rewrite !app_length. cbn [length]. lia.
    + intros u v E. destruct u; discriminate.
Qed.
Lemma annexb_roundtrip us f buf c lead : al buf c (lead ++ annexb us) -> zlen buf < 2 ^ 29 ->
  zlen (lead ++ annexb us) <= Z.of_nat f -> us <> [] -> no_start_code lead ->
  Forall (fun u => nal_ok (snd u) /\ no_start_code (snd u)) us ->
  decode_data f c = Ok (map mk (units_with_zeros us)).
Proof.
  intros Hal Hb Hf Hne Hl HF. destruct us as [|[k n] us]; [congruence|].
  inversion HF as [|? ? [H1 H2] H3]; subst. cbn [snd] in *.
  rewrite annexb_cons, app_assoc in Hal, Hf.
  apply (annexb_roundtrip0 us k n f buf c (lead ++ repeat 0 k)); try assumption.
  apply no_sc_zeros; assumption.
Qed.

(** ** AVC packets *)
Lemma last_nal_find f ns : last_nal f ns = find f (rev ns).
Proof.
  unfold last_nal. induction ns as [|n ns IH] using rev_ind; [reflexivity|].
  rewrite fold_left_app, rev_app_distr. cbn [fold_left rev app find]. destruct (f n); [reflexivity|exact IH].
Qed.
Lemma find_ext {A} (f g : A -> bool) l : (forall x, f x = g x) -> find f l = find g l.
Proof. intros H. induction l as [|x l IH]; [reflexivity|]. cbn [find]. rewrite H, IH. reflexivity. Qed.

Lemma zlen_repeat0 n : 0 <= n -> zlen (repeat 0 (Z.to_nat n)) = n.
Proof. intros H. rewrite zlen_repeat. lia. Qed.

Lemma wal_full n c done : wal n c done -> zlen done = n -> bc_off c = n /\ take n (bc_buf c) = done.
Proof.
  intros (H1 & H2 & H3 & H4 & H5) E. unfold bc_off. rewrite H2. cbn [Z.ltb Z.compare].
  split; [lia|]. rewrite <- E. exact H5.
Qed.
Lemma wal_start n : 0 <= n -> wal n (bc_init (repeat 0 (Z.to_nat n))) [].
Proof. intros H. pose proof (wal_init (repeat 0 (Z.to_nat n))) as W. rewrite zlen_repeat0 in W by lia. exact W. Qed.

Lemma nth_nthz (l : list Z) i : 0 <= i < zlen l -> nthz l i = Some (nth (Z.to_nat i) l 0).
Proof.
  intros H. unfold nthz. destruct (Z.ltb_spec i 0); [lia|].
  apply nth_error_nth'. unfold zlen in H. lia.
Qed.

Ltac wlen := rewrite ?zlen_app, ?zlen_be, ?zlen_nil; lia.
Ltac wstep W k :=
  match type of W with wal ?n ?c ?d =>
    match goal with |- context [write_bits c ?v ?w] =>
      let c' := fresh "c" in let E := fresh "E" in let W' := fresh "W" in
      destruct (wal_write n c d k v w W) as (c' & E & W'); [reflexivity|lia|wlen|
      rewrite E; cbn [bind]; clear E W; rename W' into W]
    end end.
Ltac wbytes W :=
  match type of W with wal ?n ?c ?d =>
    match goal with |- context [bc_write_bytes c ?l] =>
      let c' := fresh "c" in let E := fresh "E" in let W' := fresh "W" in
      destruct (wal_write_bytes n c d l W) as (c' & E & W'); [wlen|
      rewrite E; cbn [bind]; clear E W; rename W' into W]
    end end.

Lemma be1 b : byte b -> be 1 b = [b].
Proof. intros H. cbn [be app]. rewrite Z.mod_small by exact H. reflexivity. Qed.

Lemma avc_seq_header_ok sps pps : byte (nth 1 (n_buf sps) 0) -> byte (nth 3 (n_buf sps) 0) ->
  4 <= zlen (n_buf sps) ->
  avc_seq_header sps pps = Ok (video_pkt 0 0 0 0x17 (avc_config (n_buf sps) (option_map n_buf pps))).
Proof.
  intros Hb1 Hb3 Hs. unfold avc_seq_header. set (S := n_buf sps) in *.
  replace (zlen S <? 4) with false by lia.
  rewrite !nth_nthz by lia. cbn [of_opt bind].
  change (Z.to_nat 1) with 1%nat. change (Z.to_nat 3) with 3%nat.
  destruct pps as [p|]; cbn [option_map].
  - set (P := n_buf p). pose proof (zlen_nonneg P) as HP.
    set (N := 5 + 1 + (2 + zlen S) + 1 + (2 + zlen P)).
    pose proof (wal_start N ltac:(lia)) as W.
    do 6 wstep W 1%nat. wstep W 2%nat. wbytes W. wstep W 1%nat. wstep W 2%nat. wbytes W.
    destruct (wal_full _ _ _ W) as [Eo Et]; [wlen|].
    rewrite Eo, Et. replace (N <? N) with false by lia.
    unfold video_pkt, avc_config. f_equal. f_equal.
    rewrite (be1 (nth 1 S 0)), (be1 (nth 3 S 0)) by assumption.
    rewrite <- !app_assoc. reflexivity.
  - set (N := 5 + 1 + (2 + zlen S) + 1 + 0).
    pose proof (wal_start N ltac:(lia)) as W.
    do 6 wstep W 1%nat. wstep W 2%nat. wbytes W. wstep W 1%nat.
    destruct (wal_full _ _ _ W) as [Eo Et]; [wlen|].
    rewrite Eo, Et. replace (N <? N) with false by lia.
    unfold video_pkt, avc_config. f_equal. f_equal.
    rewrite (be1 (nth 1 S 0)), (be1 (nth 3 S 0)) by assumption.
    rewrite <- !app_assoc. reflexivity.
Qed.

Lemma avc_nal_packet_ok ctx nls n : av_tb ctx <> 0 -> nls = -1 \/ nls = 3 -> skipped n = false ->
  exists p, avc_nal_packet ctx nls n = Ok p /\ media_pkt ctx n = [p].
Proof.
  intros Ht Hn Hs. unfold avc_nal_packet, cdiv.
  replace (av_tb ctx =? 0) with false by lia. cbn [bind].
  assert (E : (if nls <? 0 then 3 else nls) = 3) by (destruct Hn; subst; reflexivity). rewrite E.
  pose proof (zlen_nonneg (n_buf n)) as H0.
  set (N := 3 + 1 + zlen (n_buf n)).
  pose proof (wal_start N ltac:(lia)) as W.
  wstep W 4%nat. wbytes W.
  destruct (wal_full _ _ _ W) as [Eo Et]; [wlen|].
  rewrite Eo, Et. replace (N <? N) with false by lia.
  eexists; split; [reflexivity|]. unfold media_pkt, skipped, is_sps, is_pps, is_aud, is_idr, is_slice, is_sei in *.
  unfold H264_NAL_IDR_SLICE, H264_NAL_SLICE, H264_NAL_SEI in *.
  destruct (n_type n =? 5); [reflexivity|]. destruct (n_type n =? 1); [reflexivity|].
  destruct (n_type n =? 6); [reflexivity|]. rewrite ?orb_true_r in Hs. discriminate.
Qed.
Lemma skipped_none ctx n : skipped n = true -> media_pkt ctx n = [].
Proof.
  unfold media_pkt, skipped, is_sps, is_pps, is_aud, is_idr, is_slice, is_sei,
    H264_NAL_SPS, H264_NAL_PPS, H264_NAL_AUD, H264_NAL_IDR_SLICE, H264_NAL_SLICE, H264_NAL_SEI.
  intros H. destruct (Z.eqb_spec (n_type n) 5) as [->|]; [discriminate|].
  destruct (Z.eqb_spec (n_type n) 1) as [->|]; [discriminate|].
  destruct (Z.eqb_spec (n_type n) 6) as [->|]; [discriminate|]. reflexivity.
Qed.
Lemma avc_nal_packets_ok ctx nls ns : av_tb ctx <> 0 -> nls = -1 \/ nls = 3 ->
  avc_nal_packets ctx nls ns = Ok (flat_map (media_pkt ctx) ns).
Proof.
  intros Ht Hn. induction ns as [|n ns IH]; [reflexivity|]. cbn [avc_nal_packets flat_map].
  destruct (skipped n) eqn:Es.
  - rewrite (skipped_none ctx n Es). exact IH.
  - destruct (avc_nal_packet_ok ctx nls n Ht Hn Es) as (p & -> & ->). cbn [bind]. rewrite IH. reflexivity.
Qed.

Lemma pps_same n : negb (is_sps n) && is_pps n = is_pps n.
Proof. unfold is_sps, is_pps, H264_NAL_SPS, H264_NAL_PPS. destruct (Z.eqb_spec (n_type n) 8) as [->|]; [reflexivity|apply andb_false_r]. Qed.

Lemma encode_avc_ok ctx nls ns : av_tb ctx <> 0 -> nls = -1 \/ nls = 3 ->
  Forall (fun n => bytes (n_buf n)) ns ->
  encode_avc ctx nls ns =
    match last_of is_sps ns with
    | Some s => if zlen (n_buf s) <? 4 then Err ERROR_H264_ENCODER else Ok (avc_packets ctx ns)
    | None => Ok (avc_packets ctx ns)
    end.
Proof.
  intros Ht Hn HF. unfold encode_avc, avc_packets. rewrite !last_nal_find. fold (last_of is_sps ns).
  rewrite (find_ext _ is_pps _ pps_same). fold (last_of is_pps ns).
  destruct (last_of is_sps ns) as [s|] eqn:Es.
  - destruct (Z.ltb_spec (zlen (n_buf s)) 4).
    + unfold avc_seq_header. replace (zlen (n_buf s) <? 4) with true by lia. reflexivity.
    + assert (Hs : bytes (n_buf s)).
      { unfold last_of in Es. apply find_some in Es as [Hin _]. apply in_rev in Hin.
        rewrite Forall_forall in HF. apply HF. assumption. }
      assert (Hnth : forall i, 0 <= i < zlen (n_buf s) -> byte (nth (Z.to_nat i) (n_buf s) 0)).
      { intros i Hi. apply (nthz_byte (n_buf s) i); [assumption|]. apply nth_nthz. assumption. }
      rewrite avc_seq_header_ok; [|apply (Hnth 1); lia|apply (Hnth 3); lia|lia].
      cbn [bind]. rewrite avc_nal_packets_ok by auto. reflexivity.
  - apply avc_nal_packets_ok; assumption.
Qed.
