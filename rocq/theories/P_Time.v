(** C247: the clock and the hexadecimal dump. *)
From Verif Require Import Base M_IO M_Text S_IO S_Http L_Http2 M_Time.

(** C247: the clock.  It is the time of the system in whole milliseconds, rounded down, for
    every time from 1970 on up to 292 million years; it never runs against the system's
    clock. *)
Theorem clock_milliseconds : forall s u, 0 <= s -> 0 <= u < 1000000 -> s * 1000 + 999 < 2 ^ 63 ->
  exists ms, update_time (Some (s, u)) = Ok ms /\ 1000 * ms <= 1000000 * s + u < 1000 * ms + 1000.
Proof.
  intros s u Hs Hu Hb. exists (s * 1000 + u / 1000). unfold update_time.
  rewrite Z.quot_div_nonneg by lia.
  pose proof (Z.div_mod u 1000 ltac:(lia)). pose proof (Z.mod_pos_bound u 1000 ltac:(lia)).
  assert (0 <= u / 1000 <= 999) by lia.
  replace ((- 2 ^ 63 <=? s * 1000) && (s * 1000 <? 2 ^ 63) &&
    ((- 2 ^ 63 <=? s * 1000 + u / 1000) && (s * 1000 + u / 1000 <? 2 ^ 63))) with true
    by (symmetry; rewrite !andb_true_iff, !Z.leb_le, !Z.ltb_lt; lia).
  rewrite Z.mod_small by lia. split; [reflexivity|lia].
Qed.
Print Assumptions clock_milliseconds.

Theorem clock_follows : forall s u s' u' ms ms', 0 <= s -> 0 <= u < 1000000 -> 0 <= u' < 1000000 ->
  s' * 1000 + 999 < 2 ^ 63 -> 1000000 * s + u <= 1000000 * s' + u' ->
  update_time (Some (s, u)) = Ok ms -> update_time (Some (s', u')) = Ok ms' -> ms <= ms'.
Proof.
  intros s u s' u' ms ms' Hs Hu Hu' Hb Ht E E'.
  destruct (clock_milliseconds s u) as (m & Em & ?); [lia|lia|lia|].
  destruct (clock_milliseconds s' u') as (m' & Em' & ?); [lia|lia|lia|].
  rewrite E in Em. rewrite E' in Em'. injection Em as <-. injection Em' as <-. lia.
Qed.
Print Assumptions clock_follows.

(** C247: the dump.  One hexadecimal number and a blank for each byte: a byte below 128 is
    the number itself, any other byte comes with 24 one bits in front.  The text tells the
    bytes. *)
Theorem dump_words : forall msg, Forall (fun b => 0 <= b < 256) msg ->
  exists ws, to_hex msg = [104; 101; 120; 58; 32; 48; 120] ++ concat (map (fun w => w ++ [32]) ws) /\
    Forall2 (fun w b => hex_number w (if b <? 128 then b else 4294967040 + b)) ws msg.
Proof.
  intros msg H. exists (map (fun b => hexs (char_int b)) msg). split.
  - unfold to_hex. f_equal. rewrite map_map, flat_map_concat_map. reflexivity.
  - induction H as [|b l Hb _ IH]; [constructor|]. cbn [map]. constructor; [|exact IH].
    replace (if b <? 128 then b else 4294967040 + b) with (char_int b).
    + apply hexs_ok. unfold char_int. apply Z.mod_pos_bound. reflexivity.
    + unfold char_int. change (2 ^ 32) with 4294967296. destruct (b <? 128) eqn:E.
      * apply Z.mod_small. lia.
      * replace (b - 256) with (4294967040 + b + (-1) * 4294967296) by lia.
        rewrite Z.mod_add by lia. apply Z.mod_small. lia.
Qed.
Print Assumptions dump_words.

Theorem dump_tells_bytes : forall a b, Forall (fun b => 0 <= b < 256) a -> Forall (fun b => 0 <= b < 256) b ->
  to_hex a = to_hex b -> a = b.
Proof.
  assert (NS : forall w v, hex_number w v -> ~ In 32 w).
  { intros w v H. induction H as [c v H|l n c v H IH H']; intros K.
    - destruct K as [K|[]]. unfold hex_value in H. lia.
    - apply in_app_iff in K. destruct K as [K|[K|[]]]; [exact (IH K)|]. unfold hex_value in H'. lia. }
  assert (VU : forall c v v', hex_value c v -> hex_value c v' -> v = v').
  { unfold hex_value. intros. lia. }
  assert (FN : forall w v, hex_number w v -> forall v', hex_number w v' -> v = v').
  { intros w v H. induction H as [c v H|l n c v H IH Hc]; intros v' H'.
    - inversion H' as [c0 v0 Hv E1 E2|l0 n0 c0 v0 Hl Hv E1 E2].
      + subst. eapply VU; eassumption.
      + destruct l0 as [|? [|? ?]]; try discriminate. inversion Hl as [|l1 ? ? ? ? ? E]. destruct l1; discriminate E.
    - inversion H' as [c0 v0 Hv E1 E2|l0 n0 c0 v0 Hl Hv E1 E2].
      + destruct l as [|? [|? ?]]; try discriminate. inversion H as [|l1 ? ? ? ? ? E]. destruct l1; discriminate E.
      + apply app_inj_tail in E1. destruct E1 as [-> ->]. rewrite (IH _ Hl), (VU _ _ _ Hc Hv). reflexivity. }
  assert (SP : forall (w w' r r' : list Z), ~ In 32 w -> ~ In 32 w' -> w ++ 32 :: r = w' ++ 32 :: r' -> w = w' /\ r = r').
  { induction w as [|x w IH]; intros [|x' w'] r r' N N' E; cbn [app] in E.
    - injection E as ->. split; reflexivity.
    - injection E as E1 E2. exfalso. apply N'. left. symmetry. exact E1.
    - injection E as E1 E2. exfalso. apply N. left. exact E1.
    - injection E as -> E. destruct (IH w' r r') as [-> ->]; [|  |exact E|split; reflexivity].
      + intros K. apply N. right. exact K.
      + intros K. apply N'. right. exact K. }
  intros a b Ha Hb E.
  destruct (dump_words a Ha) as (ws & Ea & Wa). destruct (dump_words b Hb) as (ws' & Eb & Wb).
  rewrite Ea, Eb in E. apply app_inv_head in E. clear Ea Eb. revert b ws' Hb Wb E.
  induction Wa as [|w x ws a Hw Wa IH]; intros b ws' Hb Wb E.
  - destruct Wb as [|w' y ws' b Hw' Wb]; [reflexivity|]. cbn [map concat] in E. rewrite <- app_assoc in E.
    destruct w'; discriminate E.
  - destruct Wb as [|w' y ws' b Hw' Wb].
    { cbn [map concat] in E. rewrite <- app_assoc in E. destruct w; discriminate E. }
    cbn [map concat] in E. rewrite <- !app_assoc in E. cbn [app] in E.
    apply SP in E; [|eapply NS; eassumption|eapply NS; eassumption]. destruct E as [-> E].
    pose proof (FN _ _ Hw _ Hw') as V. inversion Ha; subst. inversion Hb; subst.
    f_equal; [|eapply IH; eassumption].
    destruct (x <? 128) eqn:?, (y <? 128) eqn:?; lia.
Qed.
Print Assumptions dump_tells_bytes.

(** Non-vacuity of C247: a time in 2026; the FLV signature and version with the byte 0xff
    behind it, "hex: 0x46 4c 56 1 ffffffff ". *)
Example time_cases :
  update_time (Some (1794000000, 123999)) = Ok 1794000000123 /\
  to_hex [70; 76; 86; 1; 255] =
    [104; 101; 120; 58; 32; 48; 120; 52; 54; 32; 52; 99; 32; 53; 54; 32; 49; 32;
     102; 102; 102; 102; 102; 102; 102; 102; 32].
Proof. split; vm_compute; reflexivity. Qed.
