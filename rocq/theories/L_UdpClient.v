(** Lemmas for UDP client sockets and the load generator. *)
From Verif Require Import Base M_Opt L_Opt M_UdpClient S_UdpClient.

Lemma uc_full_gen : forall ds size got tail, filled ds -> zlen got <= size <= zlen got + zlen (concat ds) ->
  exists k, uc_read_fully size got (arriving ds ++ tail) = (Ok (got ++ take (size - zlen got) (concat ds)), arriving (skipn k ds) ++ tail)
    /\ (k <= length ds)%nat /\ size - zlen got <= zlen (concat (firstn k ds))
    /\ (forall j, (j < k)%nat -> zlen (concat (firstn j ds)) < size - zlen got).
Proof.
  induction ds as [|d ds IH]; intros size got tail Hf Hs.
  - exists 0%nat. cbn [concat arriving map app skipn firstn] in *. change (zlen (@nil Z)) with 0 in *.
    assert (uc_read_fully size got tail = (Ok got, tail)) as E by (destruct tail; cbn; replace (size <=? zlen got) with true by lia; reflexivity).
    rewrite E. unfold take. rewrite firstn_nil, app_nil_r. split; [reflexivity|]. split; [lia|]. split; [cbn; lia|]. intros j Hj. lia.
  - inversion Hf as [|x y Hd Hf' E]; subst x y. destruct (Z.eq_dec size (zlen got)) as [->|Hne].
    + exists 0%nat. cbn [arriving map app uc_read_fully skipn firstn concat]. rewrite Z.leb_refl.
      rewrite Z.sub_diag. unfold take. cbn [Z.to_nat firstn]. rewrite app_nil_r. split; [reflexivity|]. split; [lia|]. split; [cbn; lia|]. intros j Hj. lia.
    + cbn [arriving map app uc_read_fully]. replace (size <=? zlen got) with false by lia.
      unfold uc_read. assert (0 < zlen d) by (destruct d; [congruence|rewrite zlen_cons; pose proof (zlen_nonneg d); lia]).
      cbn [concat] in Hs. rewrite zlen_app in Hs. rewrite zlen_take by lia. replace (Z.min (size - zlen got) (zlen d) <=? 0) with false by lia.
      destruct (Z_le_gt_dec (size - zlen got) (zlen d)) as [Hle|Hgt].
      * (* this datagram is the last *)
        exists 1%nat. cbn [skipn firstn concat]. rewrite app_nil_r.
        assert (E : uc_read_fully size (got ++ take (size - zlen got) d) (map (fun d => RDgram d 0) ds ++ tail)
                    = (Ok (got ++ take (size - zlen got) d), arriving ds ++ tail)).
        { unfold arriving. destruct (map _ ds ++ tail); cbn [uc_read_fully];
            replace (size <=? zlen (got ++ take (size - zlen got) d)) with true by (rewrite zlen_app, zlen_take by lia; lia); reflexivity. }
        rewrite E. split; [|split; [cbn; lia|split; [lia|]]].
        -- f_equal. f_equal. f_equal. unfold take. rewrite firstn_app.
           replace (Z.to_nat (size - zlen got) - length d)%nat with 0%nat by (unfold zlen in *; lia). cbn [firstn]. rewrite app_nil_r. reflexivity.
        -- intros j Hj. replace j with 0%nat by lia. cbn. lia.
      * assert (T : take (size - zlen got) d = d) by (unfold take; apply firstn_all2; unfold zlen in *; lia). rewrite T.
        destruct (IH size (got ++ d) tail Hf') as (k & E & K1 & K2 & K3); [rewrite zlen_app; lia|]. unfold arriving in E at 1. rewrite E.
        exists (S k). cbn [skipn firstn concat length]. rewrite zlen_app in *. split; [|split; [lia|split; [rewrite zlen_app; lia|]]].
        -- f_equal. f_equal. rewrite <- app_assoc. f_equal. unfold take. rewrite firstn_app, (firstn_all2 d) by (unfold zlen in *; lia). f_equal. f_equal. unfold zlen in *; lia.
        -- intros [|j] Hj; [cbn; lia|]. cbn [firstn concat]. rewrite zlen_app. assert (zlen (concat (firstn j ds)) < size - (zlen got + zlen d)) by (apply K3; lia). lia.
Qed.

Lemma uc_write_concat : forall rs data r ds l, uc_write data rs = (r, ds, l) ->
  (r = Ok tt -> concat ds = data) /\ exists b, data = concat ds ++ b.
Proof.
  induction rs as [|e rs IH]; intros data r ds l H; destruct data as [|x data]; cbn [uc_write] in H.
  - injection H as <- <- <-. split; [reflexivity|exists []; reflexivity].
  - injection H as <- <- <-. split; [discriminate|exists (x :: data); reflexivity].
  - injection H as <- <- <-. split; [reflexivity|exists []; reflexivity].
  - destruct e as [n|eno].
    + destruct (uc_write (drop n (x :: data)) rs) as [[r1 ds1] l1] eqn:E. injection H as <- <- <-.
      destruct (IH _ _ _ _ E) as (A & b & B). split.
      * intros ->. cbn [concat]. rewrite (A eq_refl). unfold take, drop. apply firstn_skipn.
      * exists b. cbn [concat]. rewrite <- app_assoc, <- B. unfold take, drop. symmetry. apply firstn_skipn.
    + injection H as <- <- <-. split; [intros [=]|exists (x :: data); reflexivity].
Qed.

Lemma le8_small k : 0 <= k < 2 ^ 31 ->
  le 8 k = [k mod 256; k / 256 mod 256; k / 256 / 256 mod 256; k / 256 / 256 / 256 mod 256; 0; 0; 0; 0].
Proof.
  intros H. cbn [le].
  assert (E : k / 256 / 256 / 256 / 256 = 0) by (rewrite !Z.div_div by lia; apply Z.div_small; cbn; lia). rewrite E. reflexivity.
Qed.
Lemma le8_pow t : le 8 t = map (fun i => t / 256 ^ i mod 256) [0; 1; 2; 3; 4; 5; 6; 7].
Proof.
  cbn [le map]. rewrite !Z.div_div by lia. change (256 ^ 0) with 1. rewrite Z.div_1_r.
  repeat (f_equal; [f_equal; f_equal; reflexivity|]). reflexivity.
Qed.

(** What one round adds in front. *)
Lemma tool_loop_step inter gso rest seq pre wrote so now l :
  seq < 2 ^ 31 - 1 -> (0 < inter -> inter * gso < 2 ^ 63) ->
  exists P R pre' wrote' so',
    fst (tool_loop inter gso rest seq pre wrote so ((now, true) :: l))
      = VSend (tool_packet seq now rest) :: P ++ R ++ fst (tool_loop inter gso rest (seq + 1) pre' wrote' so' l)
    /\ snd (tool_loop inter gso rest seq pre wrote so ((now, true) :: l)) = snd (tool_loop inter gso rest (seq + 1) pre' wrote' so' l)
    /\ ((P = [] /\ so' = so + 1 /\ (inter <= 0 \/ so + 1 < gso)) \/ (P = [VPause (inter * gso)] /\ so' = 0 /\ 0 < inter /\ gso <= so + 1))
    /\ ((R = [] /\ wrote' = wrote + 1) \/
        (exists ms, R = [VReport (wrote + 1) ms (seq + 1) (11200 * (wrote + 1) / ms)] /\ wrote' = 0 /\ 1000 <= ms < 2 ^ 64)).
Proof.
  intros Hs Hi. cbn [tool_loop]. replace (seq =? 2 ^ 31 - 1) with false by lia.
  assert (E : (0 <? inter) && (gso <=? so + 1) && (2 ^ 63 <=? inter * gso) = false).
  { destruct (0 <? inter) eqn:E0; [|reflexivity]. replace (2 ^ 63 <=? inter * gso) with false by lia. apply andb_false_r. }
  rewrite E. destruct (tool_loop _ _ _ _ _ _ _ l) as [evs r] eqn:T. cbn [fst snd].
  do 5 eexists. rewrite T. cbn [fst snd]. split; [reflexivity|]. split; [reflexivity|]. split.
  - destruct (0 <? inter) eqn:E0; [destruct (gso <=? so + 1) eqn:E1|]; cbn [andb]; [right|left|left]; repeat split; try reflexivity; lia.
  - destruct (1000 <=? u64 (now - pre)) eqn:E1; [right|left; split; reflexivity].
    exists (u64 (now - pre)). split; [reflexivity|]. split; [reflexivity|]. split; [lia|]. unfold u64. apply Z.mod_pos_bound. reflexivity.
Qed.

Lemma tool_sends : forall nows inter gso rest seq pre wrote so,
  0 <= seq -> seq + zlen nows < 2 ^ 31 -> (0 < inter -> inter * gso < 2 ^ 63) ->
  sends (fst (tool_loop inter gso rest seq pre wrote so (map (fun t => (t, true)) nows))) = numbered seq nows rest
  /\ snd (tool_loop inter gso rest seq pre wrote so (map (fun t => (t, true)) nows)) = Fuel.
Proof.
  induction nows as [|t nows IH]; intros inter gso rest seq pre wrote so H0 Hs Hi; [split; reflexivity|].
  rewrite zlen_cons in Hs. pose proof (zlen_nonneg nows). cbn [map].
  destruct (tool_loop_step inter gso rest seq pre wrote so t (map (fun t => (t, true)) nows)) as (P & R & pre' & wrote' & so' & E & E2 & HP & HR); [lia|exact Hi|].
  rewrite E, E2. destruct (IH inter gso rest (seq + 1) pre' wrote' so') as (A & B); [lia|lia|exact Hi|]. split; [|exact B].
  unfold sends in *. cbn [flat_map numbered]. rewrite !flat_map_app, A.
  replace (flat_map _ P) with (@nil (list Z)) by (destruct HP as [(-> & _)|(-> & _)]; reflexivity).
  replace (flat_map _ R) with (@nil (list Z)) by (destruct HR as [(-> & _)|(ms & -> & _)]; reflexivity).
  cbn [app]. f_equal. unfold tool_packet. rewrite (le8_pow t), (le8_small seq) by lia. reflexivity.
Qed.

Lemma split_head {A} (x : A) l a y b : x :: l = a ++ y :: b -> (a = [] /\ x = y /\ l = b) \/ (exists a', a = x :: a' /\ l = a' ++ y :: b).
Proof. destruct a as [|z a]; cbn; intros H; injection H as <- H; [left; auto|right; eauto]. Qed.

Lemma paused_cons e l : paused (e :: l) = (match e with VPause u => u | _ => 0 end) + paused l.
Proof. reflexivity. Qed.
Lemma sends_cons e l : sends (e :: l) = (match e with VSend d => [d] | _ => [] end) ++ sends l.
Proof. reflexivity. Qed.

Lemma tool_paced : forall ticks inter gso rest seq pre wrote so a d b,
  0 < inter -> 0 <= so < gso ->
  fst (tool_loop inter gso rest seq pre wrote so ticks) = a ++ VSend d :: b ->
  paused a = inter * gso * ((so + zlen (sends a)) / gso).
Proof.
  induction ticks as [|(now, ok) ticks IH]; intros inter gso rest seq pre wrote so a d b Hi Hso E; [destruct a; discriminate|].
  assert (Z0 : paused [] = inter * gso * ((so + zlen (sends [])) / gso)).
  { change (zlen (sends [])) with 0. rewrite Z.add_0_r, Z.div_small by lia. change (paused []) with 0. lia. }
  destruct ok; [|destruct a; discriminate].
  destruct (Z.eq_dec seq (2 ^ 31 - 1)) as [->|Hs].
  { cbn [tool_loop] in E. replace (2 ^ 31 - 1 =? 2 ^ 31 - 1) with true in E by reflexivity. cbn [fst] in E.
    apply split_head in E. destruct E as [(-> & _)|(a' & -> & E)]; [exact Z0|destruct a'; discriminate]. }
  cbn [tool_loop] in E. replace (seq =? 2 ^ 31 - 1) with false in E by lia.
  replace (0 <? inter) with true in E by lia. cbn [andb] in E.
  destruct ((gso <=? so + 1) && (2 ^ 63 <=? inter * gso)) eqn:E0.
  { cbn [fst] in E. apply split_head in E. destruct E as [(-> & _)|(a' & -> & E)]; [exact Z0|destruct a'; discriminate]. }
  destruct (tool_loop inter gso rest (seq + 1) _ _ _ ticks) as [evs r] eqn:T. cbn [fst] in E.
  apply split_head in E. destruct E as [(-> & _)|(a' & -> & E)]; [exact Z0|].
  rewrite paused_cons, sends_cons. cbn [app]. rewrite zlen_cons.
  assert (Hrep : forall so' x, 0 <= so' < gso ->
     (if 1000 <=? u64 (now - pre) then [VReport (wrote + 1) (u64 (now - pre)) (seq + 1) (1400 * 8 * (wrote + 1) / u64 (now - pre))] else []) ++ evs = x ++ VSend d :: b ->
     so' = (if gso <=? so + 1 then 0 else so + 1) -> paused x = inter * gso * ((so' + zlen (sends x)) / gso)).
  { intros so' x Hb Ex Es. pose proof (fun p q y => IH inter gso rest (seq + 1) p q so' y d b Hi Hb) as IH'.
    subst so'. destruct (1000 <=? u64 (now - pre)); cbn [app] in Ex.
    - apply split_head in Ex. destruct Ex as [(-> & X & _)|(x' & -> & X)]; [discriminate|]. rewrite paused_cons, sends_cons. cbn [app].
      rewrite Z.add_0_l. eapply IH'. rewrite T. exact X.
    - eapply IH'. rewrite T. exact Ex. }
  destruct (gso <=? so + 1) eqn:E1; cbn [app] in E.
  - apply split_head in E. destruct E as [(-> & X & _)|(x & -> & X)]; [discriminate|].
    rewrite paused_cons, sends_cons. cbn [app]. rewrite (Hrep 0 x); [|lia|exact X|reflexivity].
    replace (so + (1 + zlen (sends x))) with (zlen (sends x) + 1 * gso) by lia. clear - Hso. rewrite Z.div_add by lia. rewrite !Z.add_0_l. ring.
  - rewrite (Hrep (so + 1) a'); [|lia|exact E|reflexivity]. rewrite Z.add_0_l, Z.add_assoc. reflexivity.
Qed.

Lemma no_report_cons e l : no_report (e :: l) <-> (match e with VReport _ _ _ _ => False | _ => True end) /\ no_report l.
Proof. unfold no_report. split; intros H; [inversion H; auto|constructor; tauto]. Qed.

Definition last_report (a : list uev) : Prop := exists a0 w m s k, a = a0 ++ [VReport w m s k].
Lemma last_report_cons e a : last_report (e :: a) ->
  (a = [] /\ match e with VReport _ _ _ _ => True | _ => False end) \/ last_report a.
Proof.
  intros (a0 & w & m & s & k & E). destruct a0 as [|e0 a0]; injection E as -> E; [left; split; [exact E|exact I]|].
  right. exists a0, w, m, s, k. exact E.
Qed.

Lemma tool_reports : forall ticks inter gso rest seq pre wrote so a w ms s kb b,
  fst (tool_loop inter gso rest seq pre wrote so ticks) = a ++ VReport w ms s kb :: b ->
  s = seq + zlen (sends a) /\ 1000 <= ms < 2 ^ 64 /\ kb = 11200 * w / ms
  /\ (forall a1 a2, a = a1 ++ a2 -> no_report a2 -> a1 = [] -> w = wrote + zlen (sends a2))
  /\ (forall a1 a2, a = a1 ++ a2 -> no_report a2 -> last_report a1 -> w = zlen (sends a2)).
Proof.
  induction ticks as [|(now, ok) ticks IH]; intros inter gso rest seq pre wrote so a w ms s kb b E; [destruct a; discriminate|].
  destruct ok; [|destruct a; discriminate].
  cbn [tool_loop] in E.
  destruct (seq =? 2 ^ 31 - 1). { cbn [fst] in E. destruct a as [|e [|e2 a]]; discriminate. }
  destruct ((0 <? inter) && (gso <=? so + 1) && (2 ^ 63 <=? inter * gso)). { cbn [fst] in E. destruct a as [|e [|e2 a]]; discriminate. }
  set (pa := (0 <? inter) && (gso <=? so + 1)) in *. set (dt := u64 (now - pre)) in *.
  destruct (tool_loop inter gso rest (seq + 1) _ _ _ ticks) as [evs r] eqn:T. cbn [fst] in E.
  apply split_head in E. destruct E as [(_ & X & _)|(a' & -> & E)]; [discriminate|].
  (* the part behind the pause *)
  assert (Hrep : forall x, (if 1000 <=? dt then [VReport (wrote + 1) dt (seq + 1) (1400 * 8 * (wrote + 1) / dt)] else []) ++ evs = x ++ VReport w ms s kb :: b ->
      s = seq + 1 + zlen (sends x) /\ 1000 <= ms < 2 ^ 64 /\ kb = 11200 * w / ms
      /\ (forall a1 a2, x = a1 ++ a2 -> no_report a2 -> a1 = [] -> w = wrote + 1 + zlen (sends a2))
      /\ (forall a1 a2, x = a1 ++ a2 -> no_report a2 -> last_report a1 -> w = zlen (sends a2))).
  { intros x Ex. destruct (1000 <=? dt) eqn:Er; cbn [app] in Ex.
    - apply split_head in Ex. destruct Ex as [(-> & X & Eb)|(x' & -> & X)].
      + injection X as <- <- <- <-. change (zlen (sends [])) with 0. split; [lia|]. split; [split; [lia|unfold dt, u64; apply Z.mod_pos_bound; reflexivity]|]. split; [reflexivity|].
        split; intros a1 a2 Ea Hn; [intros _|].
        * symmetry in Ea. apply app_eq_nil in Ea. destruct Ea as (-> & ->). change (zlen (sends [])) with 0. lia.
        * intros (a0 & w1 & m1 & s1 & k1 & ->). destruct a0; discriminate.
      + destruct (IH inter gso rest (seq + 1) now 0 (if pa then 0 else so + 1) x' w ms s kb b) as (A & B & C & D & F); [rewrite T; exact X|].
        rewrite sends_cons. cbn [app]. split; [exact A|]. split; [exact B|]. split; [exact C|]. split; intros a1 a2 Ea Hn.
        * intros ->. cbn [app] in Ea. subst a2. apply no_report_cons in Hn. destruct Hn as ([] & _).
        * intros L. destruct a1 as [|e1 a1]; [destruct L as (? & ? & ? & ? & ? & L); destruct x; discriminate|]. injection Ea as <- Ea.
          apply last_report_cons in L. destruct L as [(-> & _)|L]; [rewrite (D [] a2 Ea Hn eq_refl); lia|exact (F a1 a2 Ea Hn L)].
    - destruct (IH inter gso rest (seq + 1) pre (wrote + 1) (if pa then 0 else so + 1) x w ms s kb b) as (A & B & C & D & F); [rewrite T; exact Ex|].
      split; [exact A|]. split; [exact B|]. split; [exact C|]. split; [exact D|exact F]. }
  assert (Hmid : exists x, a' = (if pa then [VPause (inter * gso)] else []) ++ x /\
     (if 1000 <=? dt then [VReport (wrote + 1) dt (seq + 1) (1400 * 8 * (wrote + 1) / dt)] else []) ++ evs = x ++ VReport w ms s kb :: b).
  { destruct pa; cbn [app] in *; [|exists a'; auto]. apply split_head in E. destruct E as [(_ & X & _)|(x & -> & X)]; [discriminate|]. exists x. auto. }
  destruct Hmid as (x & -> & Ex). destruct (Hrep x Ex) as (A & B & C & D & F). clear Hrep E Ex T IH.
  assert (S1 : sends ((if pa then [VPause (inter * gso)] else []) ++ x) = sends x) by (destruct pa; reflexivity).
  split; [rewrite sends_cons, S1; cbn [app]; rewrite zlen_cons; lia|]. split; [exact B|]. split; [exact C|].
  split; intros a1 a2 Ea Hn.
  - intros ->. cbn [app] in Ea. subst a2. apply no_report_cons in Hn. destruct Hn as (_ & Hn). rewrite sends_cons, S1. cbn [app]. rewrite zlen_cons.
    rewrite (D [] x eq_refl); [lia| |reflexivity]. destruct pa; [apply no_report_cons in Hn; apply Hn|exact Hn].
  - intros L. destruct a1 as [|e1 a1]; [destruct L as (y & ? & ? & ? & ? & L); destruct y; discriminate|]. injection Ea as <- Ea.
    apply last_report_cons in L. destruct L as [(_ & [])|L].
    destruct pa; cbn [app] in Ea.
    + destruct a1 as [|e1 a1]; [destruct L as (y & ? & ? & ? & ? & L); destruct y; discriminate|]. injection Ea as <- Ea.
      apply last_report_cons in L. destruct L as [(_ & [])|L]. exact (F a1 a2 Ea Hn L).
    + exact (F a1 a2 Ea Hn L).
Qed.

Lemma tool_runs_out : forall nows inter gso rest seq pre wrote so, 0 <= seq < 2 ^ 31 -> 2 ^ 31 <= seq + zlen nows ->
  snd (tool_loop inter gso rest seq pre wrote so (map (fun t => (t, true)) nows)) = UB.
Proof.
  induction nows as [|t nows IH]; intros inter gso rest seq pre wrote so H0 Hs; [change (zlen (@nil Z)) with 0 in Hs; lia|].
  rewrite zlen_cons in Hs. cbn [map tool_loop]. destruct (seq =? 2 ^ 31 - 1) eqn:E; [reflexivity|].
  destruct ((0 <? inter) && (gso <=? so + 1) && (2 ^ 63 <=? inter * gso)); [reflexivity|].
  match goal with |- context [tool_loop ?i ?g ?r ?s ?p ?w ?o ?l] => pose proof (IH i g r s p w o) as H; destruct (tool_loop i g r s p w o l) end.
  cbn [snd] in *. apply H; lia.
Qed.
