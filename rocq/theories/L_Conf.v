(** Lemmas about the configuration. *)
From Verif Require Import Base M_Text M_Conf S_Url L_Url S_Conf.

(** ** Words *)
Lemma is_space_blank c : is_space c = true <-> blank c.
Proof. unfold is_space, blank. split; intros H; lia. Qed.
Lemma is_space_not c : ~ blank c -> is_space c = false.
Proof. intros H. destruct (is_space c) eqn:E; [|reflexivity]. apply is_space_blank in E. contradiction. Qed.
Lemma words_blanks b l : Forall blank b -> words_acc [] (b ++ l) = words_acc [] l.
Proof.
  induction b as [|c b IH]; intros H; [reflexivity|]. cbn [app words_acc].
  rewrite (proj2 (is_space_blank c) (Forall_inv H)). apply IH, (Forall_inv_tail H).
Qed.
Lemma words_run w : forall cur l, Forall (fun c => ~ blank c) w -> words_acc cur (w ++ l) = words_acc (cur ++ w) l.
Proof.
  induction w as [|c w IH]; intros cur l H; [rewrite app_nil_r; reflexivity|]. cbn [app words_acc].
  rewrite (is_space_not c (Forall_inv H)), (IH (cur ++ [c]) l (Forall_inv_tail H)), <- app_assoc. reflexivity.
Qed.
Lemma words_flush w l : w <> [] -> (l = [] \/ exists c l', l = c :: l' /\ blank c) ->
  words_acc w l = w :: words_acc [] l.
Proof.
  intros Hw [->|(c & l' & -> & Hc)]; cbn [words_acc].
  - destruct w; [contradiction|reflexivity].
  - rewrite (proj2 (is_space_blank c) Hc). destruct w; [contradiction|reflexivity].
Qed.
Lemma tokens_words l ws : tokens l ws -> words l = ws.
Proof.
  unfold words. induction 1 as [b Hb|b w l ws Hb Hw Hl Ht IH].
  - rewrite <- (app_nil_r b), words_blanks by exact Hb. reflexivity.
  - rewrite words_blanks by exact Hb. rewrite words_run by apply Hw. cbn [app].
    rewrite (words_flush w l (proj1 Hw) Hl), IH. reflexivity.
Qed.
Lemma tokens_blank c l ws : blank c -> tokens l ws -> tokens (c :: l) ws.
Proof.
  intros Hc Ht. destruct Ht as [b Hb|b w l ws Hb Hw Hl Ht].
  - apply tk_end. constructor; assumption.
  - apply (tk_word (c :: b)); try assumption. constructor; assumption.
Qed.
Lemma words_tokens_acc l : forall cur, Forall (fun c => ~ blank c) cur -> tokens (cur ++ l) (words_acc cur l).
Proof.
  induction l as [|c l IH]; intros cur Hc; cbn [words_acc].
  - destruct cur as [|x cur]; [apply tk_end; constructor|].
    apply (tk_word [] (x :: cur) [] []); [constructor|split; [discriminate|exact Hc]|left; reflexivity|apply tk_end; constructor].
  - destruct (is_space c) eqn:E.
    + apply is_space_blank in E. specialize (IH [] (Forall_nil _)). cbn [app] in IH.
      destruct cur as [|x cur]; [apply tokens_blank; assumption|].
      apply (tk_word [] (x :: cur) (c :: l)); [constructor|split; [discriminate|exact Hc]| |apply tokens_blank; assumption].
      right. exists c, l. split; [reflexivity|exact E].
    + replace (cur ++ c :: l) with ((cur ++ [c]) ++ l) by (rewrite <- app_assoc; reflexivity).
      apply IH. apply Forall_app. split; [exact Hc|]. constructor; [|constructor].
      intros Hb. apply is_space_blank in Hb. congruence.
Qed.
Lemma words_tokens l : tokens l (words l).
Proof. exact (words_tokens_acc l [] (Forall_nil _)). Qed.
Lemma tokens_word l ws : tokens l ws -> Forall word ws.
Proof. induction 1; constructor; assumption. Qed.
Lemma words_word l : Forall word (words l).
Proof. exact (tokens_word _ _ (words_tokens l)). Qed.

(** ** Ends *)
Lemma end_flag_app w c : end_flag (w ++ [c]) =
  if c =? 59 then Some KItem else if c =? 123 then Some KStart else if c =? 125 then Some KEnd else None.
Proof. unfold end_flag. rewrite rev_app_distr. reflexivity. Qed.
Lemma list_snoc (w : list Z) : w = [] \/ exists w' c, w = w' ++ [c].
Proof. induction w as [|c w' IH] using rev_ind; [left; reflexivity|right; exists w', c; reflexivity]. Qed.
Lemma end_flag_unended w : unended w -> end_flag w = None.
Proof.
  intros (H1 & H2 & H3). destruct (list_snoc w) as [->|(w' & c & ->)]; [reflexivity|]. rewrite end_flag_app.
  destruct (c =? 59) eqn:E1; [exfalso; apply H1; exists w'; f_equal; f_equal; lia|].
  destruct (c =? 123) eqn:E2; [exfalso; apply H2; exists w'; f_equal; f_equal; lia|].
  destruct (c =? 125) eqn:E3; [exfalso; apply H3; exists w'; f_equal; f_equal; lia|]. reflexivity.
Qed.
Lemma snoc_inj (a b : list Z) x y : a ++ [x] = b ++ [y] -> a = b /\ x = y.
Proof. intros H. apply app_inj_tail in H. exact H. Qed.
Lemma end_flag_none w : end_flag w = None -> unended w.
Proof.
  intros H. repeat split; intros (w' & ->); rewrite end_flag_app in H; cbn in H; discriminate.
Qed.
Lemma end_flag_some w k : end_flag w = Some k ->
  exists c, ends_in w c /\ (c = 59 /\ k = KItem \/ c = 123 /\ k = KStart \/ c = 125 /\ k = KEnd).
Proof.
  intros H. destruct (list_snoc w) as [->|(w' & c & ->)]; [discriminate|]. rewrite end_flag_app in H.
  exists c. split; [exists w'; reflexivity|].
  destruct (c =? 59) eqn:E1; [injection H as <-; left; split; [lia|reflexivity]|].
  destruct (c =? 123) eqn:E2; [injection H as <-; right; left; split; [lia|reflexivity]|].
  destruct (c =? 125) eqn:E3; [injection H as <-; right; right; split; [lia|reflexivity]|]. discriminate.
Qed.
Lemma is_hash_hash w : is_hash w = true <-> hash w.
Proof.
  unfold hash. destruct w as [|c w]; cbn [is_hash]; split; intros H; try discriminate.
  - destruct H as (? & H). discriminate.
  - exists w. f_equal. lia.
  - destruct H as (w' & H). injection H as -> _. reflexivity.
Qed.
Lemma is_hash_not w : ~ hash w -> is_hash w = false.
Proof. intros H. destruct (is_hash w) eqn:E; [apply is_hash_hash in E; contradiction|reflexivity]. Qed.

Lemma scan_ended ws w tail k : Forall unended ws -> end_flag w = Some k -> tail_ok tail ->
  scan (ws ++ w :: tail) = Ok (ws ++ [w], Some k).
Proof.
  intros Hu Hk Ht. induction Hu as [|v ws Hv Hu IH]; cbn [app scan].
  - rewrite Hk. destruct Ht as [->|(t & ts & -> & Hh)]; [reflexivity|].
    rewrite (proj2 (is_hash_hash t) Hh). reflexivity.
  - rewrite (end_flag_unended v Hv), IH. reflexivity.
Qed.
Lemma scan_open ws : Forall unended ws -> scan ws = Ok (ws, None).
Proof.
  intros Hu. induction Hu as [|v ws Hv Hu IH]; cbn [scan]; [reflexivity|].
  rewrite (end_flag_unended v Hv), IH. reflexivity.
Qed.
Lemma scan_inv ts : forall a ok, scan ts = Ok (a, ok) ->
  match ok with
  | None => a = ts /\ Forall unended ts
  | Some k => exists ws w tail, ts = ws ++ w :: tail /\ a = ws ++ [w] /\ Forall unended ws /\ end_flag w = Some k /\ tail_ok tail
  end.
Proof.
  induction ts as [|t ts IH]; intros a ok H; cbn [scan] in H.
  - injection H as <- <-. split; [reflexivity|constructor].
  - destruct (end_flag t) as [k|] eqn:Ek.
    + destruct ts as [|t2 ts'].
      * injection H as <- <-. exists [], t, []. split; [reflexivity|]. split; [reflexivity|]. split; [constructor|]. split; [exact Ek|left; reflexivity].
      * destruct (is_hash t2) eqn:Eh; [|discriminate]. injection H as <- <-.
        exists [], t, (t2 :: ts'). split; [reflexivity|]. split; [reflexivity|]. split; [constructor|]. split; [exact Ek|].
        right. exists t2, ts'. split; [reflexivity|]. apply is_hash_hash. exact Eh.
    + destruct (scan ts) as [[a1 ok1]| | |] eqn:Es; cbn in H; try discriminate. injection H as <- <-.
      specialize (IH a1 ok1 eq_refl). destruct ok1 as [k|].
      * destruct IH as (ws & w & tail & -> & -> & Hu & Hk & Ht). exists (t :: ws), w, tail.
        split; [reflexivity|]. split; [reflexivity|]. split; [|split; assumption]. constructor; [apply end_flag_none, Ek|exact Hu].
      * destruct IH as (-> & Hu). split; [reflexivity|]. constructor; [apply end_flag_none, Ek|exact Hu].
Qed.

(** ** The argument text *)
Lemma spaced_cons w ws : ws <> [] -> spaced (w :: ws) = w ++ 32 :: spaced ws.
Proof. destruct ws; [contradiction|reflexivity]. Qed.
Lemma spaced_nil ws : Forall (fun w => w <> []) ws -> spaced ws = [] -> ws = [].
Proof.
  destruct ws as [|w [|v ws]]; intros Hf H; [reflexivity| |].
  - cbn in H. exfalso. exact (Forall_inv Hf H).
  - cbn in H. destruct w; discriminate.
Qed.
Lemma spaced_snoc ws w : ws <> [] -> spaced (ws ++ [w]) = spaced ws ++ 32 :: w.
Proof.
  induction ws as [|v ws IH]; intros H; [contradiction|]. destruct ws as [|u ws]; [reflexivity|].
  cbn [app]. change ((v :: u :: ws) ++ [w]) with (v :: (u :: ws) ++ [w]).
  rewrite (spaced_cons v (u :: ws)) by discriminate. rewrite (spaced_cons v (u :: ws ++ [w])) by discriminate.
  change (u :: ws ++ [w]) with ((u :: ws) ++ [w]). rewrite IH by discriminate. rewrite <- app_assoc. reflexivity.
Qed.
Lemma arg_add_spaced ws w : Forall (fun w => w <> []) ws -> arg_add (spaced ws) w = spaced (ws ++ [w]).
Proof.
  intros Hf. destruct ws as [|v ws]; [reflexivity|]. rewrite spaced_snoc by discriminate.
  unfold arg_add. destruct (spaced (v :: ws)) eqn:E; [|reflexivity]. apply (spaced_nil _ Hf) in E. discriminate.
Qed.
Lemma fold_arg_add ws : forall ws0, Forall (fun w => w <> []) ws0 -> Forall (fun w => w <> []) ws ->
  fold_left arg_add ws (spaced ws0) = spaced (ws0 ++ ws).
Proof.
  induction ws as [|w ws IH]; intros ws0 H0 Hf; cbn [fold_left]; [rewrite app_nil_r; reflexivity|].
  rewrite arg_add_spaced by exact H0. rewrite IH; [rewrite <- app_assoc; reflexivity| |exact (Forall_inv_tail Hf)].
  apply Forall_app. split; [exact H0|]. constructor; [exact (Forall_inv Hf)|constructor].
Qed.
Lemma fold_arg_spaced ws : Forall (fun w => w <> []) ws -> fold_left arg_add ws [] = spaced ws.
Proof. intros H. exact (fold_arg_add ws [] (Forall_nil _) H). Qed.
Lemma plain_ne ws : Forall plain ws -> Forall (fun w => w <> []) ws.
Proof. apply Forall_impl. intros w Hw. apply Hw. Qed.

(** ** parse_line on written lines *)
Lemma snoc_ne {A} (l : list A) x : l ++ [x] <> [].
Proof. destruct l; discriminate. Qed.
Lemma parse_args n more k l tail0 : words l = n :: tail0 -> scan (n :: tail0) = Ok (n :: more, Some k) ->
  ~ hash n -> unended n -> more <> [] ->
  parse_line l =
    (let arg := fold_left arg_add (removelast more) [] in
     let lst := last more [] in
     match k with
     | KStart => Ok (LStart n arg)
     | KEnd => Ok LEnd
     | KItem => if eqb_list lst [59] then Ok (LItem n arg)
                else Ok (LItem n (match arg with [] => [] | _ => arg ++ [SP] end ++ removelast lst))
     end).
Proof.
  intros Hw Hs Hh Hu Hm. unfold parse_line. rewrite Hw, Hs. cbn [bind fst snd]. rewrite (is_hash_not n Hh).
  rewrite (eqb_list_neq n [123]) by (intros ->; apply (proj1 (proj2 Hu)); exists []; reflexivity).
  rewrite (eqb_list_neq n [125]) by (intros ->; apply (proj2 (proj2 Hu)); exists []; reflexivity).
  destruct more as [|m more]; [contradiction|]. destruct k; reflexivity.
Qed.
Lemma plain_unended ws : Forall plain ws -> Forall unended ws.
Proof. apply Forall_impl. intros w Hw. apply Hw. Qed.
Lemma parse_item n vs l : item_line n vs l -> parse_line l = Ok (LItem n (spaced vs)).
Proof.
  intros (Hn & Hh & Hv & tail & Ht & [Hl|(vs0 & v & -> & Hl)]).
  - rewrite (parse_args n (vs ++ [[59]]) KItem l (vs ++ [59] :: tail)).
    + cbn zeta. rewrite removelast_last, last_last, eqb_list_refl, (fold_arg_spaced vs (plain_ne vs Hv)). reflexivity.
    + apply tokens_words. exact Hl.
    + change (n :: vs ++ [[59]]) with ((n :: vs) ++ [[59]]). change (n :: vs ++ [59] :: tail) with ((n :: vs) ++ [59] :: tail).
      apply scan_ended; [|reflexivity|exact Ht]. apply plain_unended. constructor; assumption.
    + exact Hh.
    + apply Hn.
    + apply snoc_ne.
  - apply Forall_app in Hv. destruct Hv as (Hv0 & Hv). apply Forall_inv in Hv.
    rewrite (parse_args n (vs0 ++ [v ++ [59]]) KItem l (vs0 ++ (v ++ [59]) :: tail)).
    + cbn zeta. rewrite removelast_last, last_last, (fold_arg_spaced vs0 (plain_ne vs0 Hv0)).
      rewrite eqb_list_neq.
      * rewrite removelast_last. do 2 f_equal. destruct vs0 as [|u vs0]; [reflexivity|].
        rewrite spaced_snoc by discriminate. destruct (spaced (u :: vs0)) eqn:E.
        -- apply (spaced_nil _ (plain_ne _ Hv0)) in E. discriminate.
        -- rewrite <- app_assoc. reflexivity.
      * intros E. change [59] with ([] ++ [59]) in E at 2. apply snoc_inj in E. exact (proj1 (proj1 Hv) (proj1 E)).
    + apply tokens_words. exact Hl.
    + change (n :: vs0 ++ [v ++ [59]]) with ((n :: vs0) ++ [v ++ [59]]).
      change (n :: vs0 ++ (v ++ [59]) :: tail) with ((n :: vs0) ++ (v ++ [59]) :: tail).
      apply scan_ended; [|rewrite end_flag_app; reflexivity|exact Ht]. apply plain_unended. constructor; assumption.
    + exact Hh.
    + apply Hn.
    + apply snoc_ne.
Qed.
Lemma parse_start t ns l : start_line t ns l -> parse_line l = Ok (LStart t (spaced ns)).
Proof.
  intros (Hn & Hh & Hv & tail & Ht & Hl).
  rewrite (parse_args t (ns ++ [[123]]) KStart l (ns ++ [123] :: tail)).
  - cbn zeta. rewrite removelast_last, (fold_arg_spaced ns (plain_ne ns Hv)). reflexivity.
  - apply tokens_words. exact Hl.
  - change (t :: ns ++ [[123]]) with ((t :: ns) ++ [[123]]). change (t :: ns ++ [123] :: tail) with ((t :: ns) ++ [123] :: tail).
    apply scan_ended; [|reflexivity|exact Ht]. apply plain_unended. constructor; assumption.
  - exact Hh.
  - apply Hn.
  - apply snoc_ne.
Qed.
Lemma parse_end l : end_line l -> parse_line l = Ok LEnd.
Proof.
  intros (tail & Ht & Hl). unfold parse_line. rewrite (tokens_words l _ Hl).
  pose proof (scan_ended [] [125] tail KEnd (Forall_nil _) eq_refl Ht) as Hs. cbn [app] in Hs. rewrite Hs. reflexivity.
Qed.
Lemma parse_skip l : skip_line l -> parse_line l = Ok LSkip.
Proof.
  intros [Hl|(w & ws & Hl & Hh & Hw & Hu)]; unfold parse_line; rewrite (tokens_words l _ Hl); [reflexivity|].
  rewrite (scan_open (w :: ws)) by (constructor; assumption). cbn [bind fst snd].
  rewrite (proj2 (is_hash_hash w) Hh). reflexivity.
Qed.

(** ** What an accepted line looks like *)
Lemma parse_inv l x : parse_line l = Ok x ->
  match x with
  | LSkip => line_delta l 0
  | LItem c a => line_delta l 0 /\ leads_with c l
  | LStart c a => line_delta l 1 /\ leads_with c l
  | LEnd => line_delta l (-1)
  end.
Proof.
  intros H. pose proof (words_tokens l) as Ht. unfold parse_line in H.
  destruct (scan (words l)) as [[a ok]| | |] eqn:Es; cbn in H; try discriminate.
  pose proof (scan_inv _ _ _ Es) as Hi.
  destruct a as [|cmd more].
  - injection H as <-. destruct ok as [k|].
    + destruct Hi as (ws & w & tail & _ & E & _). destruct ws; discriminate.
    + destruct Hi as (E & _). rewrite <- E in Ht. apply (ld_skip l [] Ht). left; reflexivity.
  - destruct (is_hash cmd) eqn:Eh.
    + injection H as <-. apply is_hash_hash in Eh. apply (ld_skip l (words l) Ht). right.
      destruct ok as [k|].
      * destruct Hi as (ws & w & tail & E & E2 & _). rewrite E. destruct ws as [|w1 ws]; cbn [app] in *; injection E2 as <- E2; eauto.
      * destruct Hi as (E & _). rewrite <- E. eauto.
    + destruct ok as [k|]; [|discriminate].
      destruct Hi as (ws & w & tail & E & E2 & Hu & Hk & Htl).
      assert (Hld : forall d, (exists c, ends_in w c /\ (c = 59 /\ d = 0 \/ c = 123 /\ d = 1 \/ c = 125 /\ d = -1)) -> line_delta l d).
      { intros d (c & Hc & Hd). rewrite E in Ht. apply (ld_end l ws w tail c d Ht); try assumption.
        intros w1 ws1 E3. rewrite E3 in E2. injection E2 as -> _. intros Hh. apply is_hash_hash in Hh. congruence. }
      assert (Hlead : leads_with cmd l).
      { exists (more ++ tail). rewrite E in Ht. replace (ws ++ w :: tail) with ((ws ++ [w]) ++ tail) in Ht by (rewrite <- app_assoc; reflexivity).
        rewrite <- E2 in Ht. exact Ht. }
      apply end_flag_some in Hk. destruct Hk as (c & Hc & Hk).
      destruct more as [|m more].
      * destruct k; try discriminate. injection H as <-. apply Hld. exists c. split; [exact Hc|].
        destruct Hk as [[_ Hk]|[[_ Hk]|[Hk _]]]; try discriminate. right; right; split; [exact Hk|reflexivity].
      * destruct (eqb_list cmd [123] || eqb_list cmd [125]); [discriminate|].
        destruct k.
        -- assert (Hl0 : line_delta l 0).
           { apply Hld. exists c. split; [exact Hc|]. destruct Hk as [[Hk _]|[[_ Hk]|[_ Hk]]]; try discriminate. left; split; [exact Hk|reflexivity]. }
           destruct (eqb_list (last (m :: more) []) [59]); injection H as <-; (split; [exact Hl0|exact Hlead]).
        -- injection H as <-. split; [|exact Hlead]. apply Hld. exists c. split; [exact Hc|].
           destruct Hk as [[_ Hk]|[[Hk _]|[_ Hk]]]; try discriminate. right; left; split; [exact Hk|reflexivity].
        -- injection H as <-. apply Hld. exists c. split; [exact Hc|].
           destruct Hk as [[_ Hk]|[[_ Hk]|[Hk _]]]; try discriminate. right; right; split; [exact Hk|reflexivity].
Qed.

(** ** The module reader without fuel *)
Lemma conf_rest_len f : forall ty name ls sets subs m rest,
  conf_body f ty name ls sets subs = Ok (m, rest) -> (length rest <= length ls)%nat.
Proof.
  induction f as [|f IH]; intros ty name ls sets subs m rest H; [discriminate|]. cbn [conf_body] in H.
  destruct ls as [|l ls].
  - destruct (is_ty ty (str "root")); [|discriminate]. injection H as _ <-. apply Nat.le_refl.
  - destruct (parse_line l) as [p| | |]; cbn [bind] in H; try discriminate. cbn [length].
    destruct p as [|c a|c a|].
    + apply IH in H. lia.
    + destruct (options_of ty) as [os|]; [|discriminate]. destruct (find_opt os c) as [[k d]|]; [|apply IH in H; lia].
      destruct k; try discriminate; (destruct (opt_check _ a); cbn [bind] in H; try discriminate; apply IH in H; lia).
    + destruct (is_ty c (str "location")); [discriminate|]. destruct (options_of c); [|discriminate].
      destruct (conf_body f c a ls [] []) as [[s r]| | |] eqn:E; cbn [bind fst snd] in H; try discriminate.
      destruct (post_sub ty s); cbn [bind] in H; try discriminate. apply IH in H. apply IH in E. lia.
    + destruct (is_ty ty (str "root")); [discriminate|]. injection H as _ <-. lia.
Qed.
Lemma conf_fuel f1 : forall f2 ty name ls sets subs, (length ls < f1)%nat -> (length ls < f2)%nat ->
  conf_body f1 ty name ls sets subs = conf_body f2 ty name ls sets subs.
Proof.
  induction f1 as [|f1 IH]; intros f2 ty name ls sets subs H1 H2; [lia|]. destruct f2 as [|f2]; [lia|]. cbn [conf_body].
  destruct ls as [|l ls]; [reflexivity|]. cbn [length] in H1, H2.
  destruct (parse_line l) as [p| | |]; cbn [bind]; try reflexivity. destruct p as [|c a|c a|]; try reflexivity.
  - apply IH; lia.
  - destruct (options_of ty) as [os|]; [|reflexivity]. destruct (find_opt os c) as [[k d]|]; [|apply IH; lia].
    destruct k; try reflexivity; (destruct (opt_check _ a); cbn [bind]; try reflexivity; apply IH; lia).
  - destruct (is_ty c (str "location")); [reflexivity|]. destruct (options_of c); [|reflexivity].
    rewrite (IH f2 c a ls [] []) by lia.
    destruct (conf_body f2 c a ls [] []) as [[s r]| | |] eqn:E; cbn [bind fst snd]; try reflexivity.
    apply conf_rest_len in E. destruct (post_sub ty s); cbn [bind]; try reflexivity. apply IH; lia.
Qed.
Definition cb (ty name : list Z) (ls : list (list Z)) := conf_body (S (length ls)) ty name ls.
Lemma cb_cons ty name l ls sets subs : cb ty name (l :: ls) sets subs =
  let? p := parse_line l in
  match p with
  | LSkip => cb ty name ls sets subs
  | LEnd => if is_ty ty (str "root") then Err ERROR_CONFIG_PARSE_INVALID else Ok (CMod ty name sets subs, ls)
  | LItem c a =>
      match options_of ty with
      | None => Err CONF_EXIT
      | Some os =>
          match find_opt os c with
          | None => cb ty name ls sets subs
          | Some (OSub, _) => Err ERROR_CONFIG_PARSE_INVALID
          | Some (k, _) => let? _ := opt_check k a in cb ty name ls (sets ++ [(c, a)]) subs
          end
      end
  | LStart c a =>
      if is_ty c (str "location") then UB else
      match options_of c with
      | None => Err CONF_EXIT
      | Some _ =>
          let? r := cb c a ls [] [] in
          let? _ := post_sub ty (fst r) in
          cb ty name (snd r) sets (subs ++ [fst r])
      end
  end.
Proof.
  unfold cb. cbn [length]. remember (S (length ls)) as f eqn:Ef. cbn [conf_body].
  destruct (parse_line l) as [p| | |]; cbn [bind]; try reflexivity. destruct p as [|c a|c a|]; try reflexivity.
  destruct (is_ty c (str "location")); [reflexivity|]. destruct (options_of c); [|reflexivity].
  destruct (conf_body f c a ls [] []) as [[s r]| | |] eqn:E; cbn [bind fst snd]; try reflexivity.
  apply conf_rest_len in E. destruct (post_sub ty s); cbn [bind]; try reflexivity.
  transitivity (conf_body (S (length r)) ty name r sets (subs ++ [s])); [apply conf_fuel; lia|reflexivity].
Qed.
Lemma cb_nil ty name sets subs : cb ty name [] sets subs =
  if is_ty ty (str "root") then Ok (CMod ty name sets subs, []) else Err ERROR_CONFIG_PARSE_INVALID.
Proof. reflexivity. Qed.
Lemma init_conf_cb ls : init_conf ls = let? r := cb (str "root") [] ls [] [] in Ok (fst r).
Proof. reflexivity. Qed.
Lemma cb_rest_len ty name ls sets subs m rest : cb ty name ls sets subs = Ok (m, rest) -> (length rest <= length ls)%nat.
Proof. apply conf_rest_len. Qed.

(** ** Written configurations *)
Lemma is_ty_true t s : is_ty t s = true <-> t = s.
Proof. apply eqb_list_spec. Qed.
Lemma is_ty_false t s : t <> s -> is_ty t s = false.
Proof. apply eqb_list_neq. Qed.
Lemma block_type_known t : In t block_types ->
  is_ty t (str "location") = false /\ is_ty t (str "root") = false /\ options_of t <> None.
Proof.
  unfold block_types. cbn [In]. intros [<-|[<-|[<-|[<-|[<-|[<-|[<-|[<-|[]]]]]]]]]; (split; [reflexivity|split; [reflexivity|discriminate]]).
Qed.
Lemma ne_zlen (l : list Z) : l <> [] -> (zlen l =? 0) = false.
Proof. intros H. destruct l as [|x l]; [contradiction|]. rewrite zlen_cons. pose proof (zlen_nonneg l). lia. Qed.
Lemma nests_post ty s : nests ty (cm_type s) (cm_name s) -> post_sub ty s = Ok tt.
Proof.
  intros (H1 & H2 & H3). unfold post_sub.
  destruct (is_ty ty (str "http") || is_ty ty (str "rtmp") || is_ty ty (str "srt")) eqn:E1.
  - rewrite H1; [reflexivity|]. cbn [In]. rewrite !orb_true_iff, !is_ty_true in E1. intuition.
  - destruct (is_ty ty (str "server") || is_ty ty (str "globalhost")) eqn:E2.
    + destruct H2 as (-> & Hn); [cbn [In]; rewrite !orb_true_iff, !is_ty_true in E2; intuition|].
      rewrite (ne_zlen _ Hn). reflexivity.
    + destruct (is_ty ty (str "host")) eqn:E3; [|reflexivity]. apply is_ty_true in E3.
      destruct (H3 E3) as [->| ->]; reflexivity.
Qed.
Lemma post_nests ty s : post_sub ty s = Ok tt -> nests ty (cm_type s) (cm_name s).
Proof.
  unfold post_sub, nests. intros H.
  destruct (is_ty ty (str "http") || is_ty ty (str "rtmp") || is_ty ty (str "srt")) eqn:E1.
  - destruct (is_ty (cm_type s) (str "server")) eqn:E; [|discriminate]. apply is_ty_true in E.
    rewrite !orb_true_iff, !is_ty_true in E1. split; [auto|]. split.
    + cbn [In]. intros Hin. exfalso. destruct E1 as [[->| ->]| ->]; destruct Hin as [Hin|[Hin|[]]]; discriminate Hin.
    + intros ->. exfalso. destruct E1 as [[E1|E1]|E1]; discriminate E1.
  - rewrite !orb_false_iff in E1. destruct E1 as ((E1 & E2) & E3).
    split.
    { cbn [In]. intros Hin. exfalso. destruct Hin as [<-|[<-|[<-|[]]]]; [discriminate E1|discriminate E2|discriminate E3]. }
    destruct (is_ty ty (str "server") || is_ty ty (str "globalhost")) eqn:E4.
    + destruct (is_ty (cm_type s) (str "host")) eqn:E; [|discriminate]. apply is_ty_true in E.
      destruct (zlen (cm_name s) =? 0) eqn:Ez; [discriminate|].
      rewrite !orb_true_iff, !is_ty_true in E4. split.
      * intros _. split; [exact E|]. intros En. rewrite En in Ez. discriminate.
      * intros ->. exfalso. destruct E4 as [E4|E4]; discriminate E4.
    + rewrite !orb_false_iff in E4. destruct E4 as (E4 & E5). split.
      * cbn [In]. intros Hin. exfalso. destruct Hin as [<-|[<-|[]]]; [discriminate E4|discriminate E5].
      * intros ->. change (is_ty (str "host") (str "host")) with true in H. cbn iota in H.
        destruct (is_ty (cm_type s) (str "stream")) eqn:Es; [left; apply is_ty_true, Es|].
        destruct (is_ty (cm_type s) (str "upstream")) eqn:Eu; [right; apply is_ty_true, Eu|]. discriminate.
Qed.
Lemma settings_cons t e es : settings t (e :: es) = settings t [e] ++ settings t es.
Proof. unfold settings. cbn [flat_map]. rewrite app_nil_r. reflexivity. Qed.
Lemma conf_writes es ls : writes es ls -> forall ty name rest sets subs,
  options_of ty <> None -> Forall (entry_ok ty) es ->
  cb ty name (ls ++ rest) sets subs = cb ty name rest (sets ++ settings ty es) (subs ++ flat_map block_of es).
Proof.
  induction 1 as [|l es ls Hl W IH|n vs l es ls Hl W IH|t ns body l lb le es ls Hl Wb IHb He W IH];
    intros ty name rest sets subs Ht Hok.
  - cbn [app settings flat_map]. rewrite !app_nil_r. reflexivity.
  - cbn [app]. rewrite cb_cons, (parse_skip l Hl). cbn [bind]. apply IH; assumption.
  - cbn [app]. rewrite cb_cons, (parse_item n vs l Hl). cbn [bind].
    pose proof (Forall_inv Hok) as Ho. pose proof (Forall_inv_tail Hok) as Hok'.
    rewrite settings_cons. cbn [flat_map block_of app]. inversion Ho as [n' vs' Hk Hb E1|]; subst n' vs'.
    unfold settings at 1. cbn [flat_map]. rewrite app_nil_r.
    unfold option_kind in *. destruct (options_of ty) as [os|] eqn:Eo; [|contradiction].
    destruct (find_opt os n) as [[k d]|] eqn:Ef.
    + assert (Hc : opt_check k (spaced vs) = Ok tt).
      { destruct k; try reflexivity. destruct (spaced vs) eqn:Es; [|reflexivity].
        apply spaced_nil in Es; [exfalso; exact (Hb eq_refl Es)|]. destruct Hl as (_ & _ & Hv & _). exact (plain_ne vs Hv). }
      destruct k; try (rewrite Hc; cbn [bind]; rewrite IH by (try rewrite Eo; try discriminate; assumption); rewrite <- app_assoc; reflexivity).
      exfalso. apply Hk. reflexivity.
    + apply IH; [rewrite Eo; discriminate|exact Hok'].
  - cbn [app]. rewrite <- app_assoc. cbn [app]. rewrite cb_cons, (parse_start t ns l Hl). cbn [bind].
    pose proof (Forall_inv Hok) as Ho. pose proof (Forall_inv_tail Hok) as Hok'.
    inversion Ho as [|t' ns' body' Hin Hn Hbody E]; subst t' ns' body'.
    destruct (block_type_known t Hin) as (H1 & H2 & H3). rewrite H1.
    destruct (options_of t) as [os|] eqn:Eo; [|contradiction].
    rewrite (IHb t (spaced ns) (le :: ls ++ rest) [] []) by (try rewrite Eo; try discriminate; assumption).
    rewrite cb_cons, (parse_end le He). cbn [bind app]. rewrite H2. cbn [bind fst snd].
    rewrite (nests_post ty (CMod t (spaced ns) (settings t body) (flat_map block_of body)) Hn). cbn [bind].
    rewrite (IH ty name rest) by assumption.
    rewrite settings_cons. cbn [settings flat_map block_of app]. rewrite <- app_assoc. reflexivity.
Qed.

(** ** Balance *)
Definition bal (ds : list Z) : Prop := (forall n, 0 <= total (firstn n ds)) /\ total ds = 0.
Lemma total_app a b : total (a ++ b) = total a + total b.
Proof. induction a as [|x a IH]; cbn [app total]; lia. Qed.
Lemma bal_nil : bal [].
Proof. split; [intros n; rewrite firstn_nil; cbn; lia|reflexivity]. Qed.
Lemma bal_zero ds : bal ds -> bal (0 :: ds).
Proof. intros (H & H0). split; [|cbn [total]; lia]. intros [|n]; cbn [firstn total]; [lia|]. specialize (H n). lia. Qed.
Lemma bal_block ds0 ds : bal ds0 -> bal ds -> bal (1 :: ds0 ++ -1 :: ds).
Proof.
  intros (H & H0) (G & G0). split.
  - intros [|n]; cbn [firstn total]; [lia|]. rewrite firstn_app, total_app.
    destruct (Nat.le_gt_cases n (length ds0)) as [Hn|Hn].
    + replace (n - length ds0)%nat with 0%nat by lia. cbn [firstn total]. specialize (H n). lia.
    + rewrite firstn_all2 by lia. destruct (n - length ds0)%nat as [|k] eqn:Ek; [lia|]. cbn [firstn total]. specialize (G k). lia.
  - cbn [total]. rewrite total_app. cbn [total]. lia.
Qed.
Lemma conf_balanced f : forall ty name ls sets subs m rest,
  conf_body f ty name ls sets subs = Ok (m, rest) -> Forall (fun l => ~ leads_with (str "root") l) ls ->
  exists used ds, ls = used ++ rest /\ Forall2 line_delta used ds /\
    (if is_ty ty (str "root") then rest = [] /\ bal ds else exists ds0, ds = ds0 ++ [-1] /\ bal ds0).
Proof.
  induction f as [|f IH]; intros ty name ls sets subs m rest H Hr; [discriminate|]. cbn [conf_body] in H.
  destruct ls as [|l ls].
  - destruct (is_ty ty (str "root")) eqn:Er; [|discriminate]. injection H as _ <-.
    exists [], []. split; [reflexivity|]. split; [constructor|]. split; [reflexivity|apply bal_nil].
  - destruct (parse_line l) as [p| | |] eqn:Ep; cbn [bind] in H; try discriminate.
    pose proof (parse_inv l p Ep) as Hp. pose proof (Forall_inv Hr) as Hl. pose proof (Forall_inv_tail Hr) as Hr'. clear Hr.
    assert (Hzero : line_delta l 0 -> (exists used ds, ls = used ++ rest /\ Forall2 line_delta used ds /\
       (if is_ty ty (str "root") then rest = [] /\ bal ds else exists ds0, ds = ds0 ++ [-1] /\ bal ds0)) ->
       exists used ds, l :: ls = used ++ rest /\ Forall2 line_delta used ds /\
       (if is_ty ty (str "root") then rest = [] /\ bal ds else exists ds0, ds = ds0 ++ [-1] /\ bal ds0)).
    { intros Hd (used & ds & -> & Hf & Hb). exists (l :: used), (0 :: ds). split; [reflexivity|]. split; [constructor; assumption|].
      destruct (is_ty ty (str "root")).
      - split; [apply Hb|apply bal_zero, Hb].
      - destruct Hb as (ds0 & -> & Hb). exists (0 :: ds0). split; [reflexivity|apply bal_zero, Hb]. }
    destruct p as [|c a|c a|].
    + apply Hzero; [exact Hp|]. exact (IH _ _ _ _ _ _ _ H Hr').
    + apply Hzero; [apply Hp|].
      destruct (options_of ty) as [os|]; [|discriminate]. destruct (find_opt os c) as [[k d]|]; [|exact (IH _ _ _ _ _ _ _ H Hr')].
      destruct k; try discriminate; (destruct (opt_check _ a); cbn [bind] in H; try discriminate; exact (IH _ _ _ _ _ _ _ H Hr')).
    + destruct (is_ty c (str "location")); [discriminate|]. destruct (options_of c); [|discriminate].
      destruct (conf_body f c a ls [] []) as [[s r]| | |] eqn:E; cbn [bind fst snd] in H; try discriminate.
      destruct (post_sub ty s); cbn [bind] in H; try discriminate.
      destruct (IH _ _ _ _ _ _ _ E Hr') as (u1 & d1 & -> & F1 & B1).
      assert (Hc : is_ty c (str "root") = false).
      { apply is_ty_false. intros ->. apply Hl. apply Hp. }
      rewrite Hc in B1. destruct B1 as (d0 & -> & B1).
      assert (Hr2 : Forall (fun l => ~ leads_with (str "root") l) r) by (apply Forall_app in Hr'; apply Hr').
      destruct (IH _ _ _ _ _ _ _ H Hr2) as (u2 & d2 & -> & F2 & B2).
      exists (l :: u1 ++ u2), (1 :: d0 ++ -1 :: d2). split; [rewrite app_comm_cons, app_assoc; reflexivity|]. split.
      { constructor; [apply Hp|]. change (d0 ++ -1 :: d2) with (d0 ++ [-1] ++ d2). rewrite app_assoc. apply Forall2_app; assumption. }
      destruct (is_ty ty (str "root")).
      * split; [apply B2|]. apply bal_block; [exact B1|apply B2].
      * destruct B2 as (d3 & -> & B2). exists (1 :: d0 ++ -1 :: d3). split; [|apply bal_block; assumption].
        cbn [app]. rewrite <- app_assoc. reflexivity.
    + destruct (is_ty ty (str "root")) eqn:Er; [discriminate|]. injection H as _ <-.
      exists [l], [-1]. split; [reflexivity|]. split; [constructor; [exact Hp|constructor]|]. exists []. split; [reflexivity|apply bal_nil].
Qed.

(** ** The loaded tree *)
Lemma conf_type f : forall ty name ls sets subs m rest,
  conf_body f ty name ls sets subs = Ok (m, rest) -> cm_type m = ty /\ cm_name m = name.
Proof.
  induction f as [|f IH]; intros ty name ls sets subs m rest H; [discriminate|]. cbn [conf_body] in H.
  destruct ls as [|l ls].
  - destruct (is_ty ty (str "root")); [|discriminate]. injection H as <- _. split; reflexivity.
  - destruct (parse_line l) as [p| | |]; cbn [bind] in H; try discriminate. destruct p as [|c a|c a|].
    + exact (IH _ _ _ _ _ _ _ H).
    + destruct (options_of ty) as [os|]; [|discriminate]. destruct (find_opt os c) as [[k d]|]; [|exact (IH _ _ _ _ _ _ _ H)].
      destruct k; try discriminate; (destruct (opt_check _ a); cbn [bind] in H; try discriminate; exact (IH _ _ _ _ _ _ _ H)).
    + destruct (is_ty c (str "location")); [discriminate|]. destruct (options_of c); [|discriminate].
      destruct (conf_body f c a ls [] []) as [[s r]| | |]; cbn [bind fst snd] in H; try discriminate.
      destruct (post_sub ty s); cbn [bind] in H; try discriminate. exact (IH _ _ _ _ _ _ _ H).
    + destruct (is_ty ty (str "root")); [discriminate|]. injection H as <- _. split; reflexivity.
Qed.
Lemma conf_shaped f : forall ty name ls sets subs m rest,
  conf_body f ty name ls sets subs = Ok (m, rest) -> shaped (CMod ty name sets subs) -> shaped m.
Proof.
  induction f as [|f IH]; intros ty name ls sets subs m rest H Hs; [discriminate|]. cbn [conf_body] in H.
  destruct ls as [|l ls].
  - destruct (is_ty ty (str "root")); [|discriminate]. injection H as <- _. exact Hs.
  - destruct (parse_line l) as [p| | |]; cbn [bind] in H; try discriminate. destruct p as [|c a|c a|].
    + exact (IH _ _ _ _ _ _ _ H Hs).
    + destruct (options_of ty) as [os|] eqn:Eo; [|discriminate].
      destruct (find_opt os c) as [[k d]|] eqn:Ef; [|exact (IH _ _ _ _ _ _ _ H Hs)].
      assert (Hk : k <> OSub) by (intros ->; discriminate).
      assert (H' : exists v, opt_check k a = Ok v /\ conf_body f ty name ls (sets ++ [(c, a)]) subs = Ok (m, rest)).
      { destruct k; try discriminate; (destruct (opt_check _ a) as [v| | |]; cbn [bind] in H; try discriminate; exists v; split; [reflexivity|exact H]). }
      destruct H' as (_ & _ & H'). apply (IH _ _ _ _ _ _ _ H'). inversion Hs as [t n s1 s2 Hsub Hset E1]; subst. constructor; [exact Hsub|].
      apply Forall_app. split; [exact Hset|]. constructor; [|constructor]. exists k. cbn [fst]. unfold option_kind. rewrite Eo, Ef. split; [reflexivity|exact Hk].
    + destruct (is_ty c (str "location")); [discriminate|]. destruct (options_of c); [|discriminate].
      destruct (conf_body f c a ls [] []) as [[s r]| | |] eqn:E; cbn [bind fst snd] in H; try discriminate.
      destruct (post_sub ty s) as [[]| | |] eqn:Epost; cbn [bind] in H; try discriminate.
      apply (IH _ _ _ _ _ _ _ H). inversion Hs as [t n s1 s2 Hsub Hset E1]; subst. constructor; [|exact Hset].
      apply Forall_app. split; [exact Hsub|]. constructor; [|constructor]. split; [apply post_nests, Epost|].
      apply (IH _ _ _ _ _ _ _ E). constructor; constructor.
    + destruct (is_ty ty (str "root")); [discriminate|]. injection H as <- _. exact Hs.
Qed.

(** ** Lines that say nothing *)
(** A line skipped in every block. *)
Definition idle (l : list Z) : Prop :=
  parse_line l = Ok LSkip \/
  exists c a, parse_line l = Ok (LItem c a) /\ forall t os, options_of t = Some os -> find_opt os c = None.
(** [ls'] is [ls] with idle lines put in. *)
Inductive thinner : list (list Z) -> list (list Z) -> Prop :=
| th_nil : thinner [] []
| th_keep l ls ls' : thinner ls ls' -> thinner (l :: ls) (l :: ls')
| th_idle l ls ls' : idle l -> thinner ls ls' -> thinner ls (l :: ls').
Definition rel_res (a b : res (cmod * list (list Z))) : Prop :=
  match a, b with
  | Ok (m, r), Ok (m', r') => m = m' /\ thinner r r'
  | Err e, Err e' => e = e'
  | UB, UB => True
  | Fuel, Fuel => True
  | _, _ => False
  end.
Lemma cb_thinner n : forall ls ls', (length ls' < n)%nat -> thinner ls ls' -> forall ty name sets subs, options_of ty <> None ->
  rel_res (cb ty name ls sets subs) (cb ty name ls' sets subs).
Proof.
  induction n as [|n IHn]; intros ls ls' Hlen Ht; [lia|].
  induction Ht as [|l ls ls' Ht IH|l ls ls' Hi Ht IH]; intros ty name sets subs Hty.
  - rewrite cb_nil. destruct (is_ty ty (str "root")); cbn; [split; [reflexivity|constructor]|reflexivity].
  - cbn [length] in Hlen. rewrite !cb_cons. destruct (parse_line l) as [p| | |]; cbn [bind]; try exact I; try reflexivity.
    destruct p as [|c a|c a|].
    + apply IHn; [lia|assumption|assumption].
    + destruct (options_of ty) as [os|] eqn:Eo; [|reflexivity].
      assert (Hty' : options_of ty <> None) by (rewrite Eo; discriminate).
      destruct (find_opt os c) as [[k d]|]; [|apply IHn; [lia|assumption|assumption]].
      destruct k; try reflexivity; (destruct (opt_check _ a); cbn [bind]; try exact I; try reflexivity; apply IHn; [lia|assumption|assumption]).
    + destruct (is_ty c (str "location")); [exact I|]. destruct (options_of c) as [os|] eqn:Eo; [|reflexivity].
      assert (Hc : options_of c <> None) by (rewrite Eo; discriminate).
      assert (Hlt : (length ls' < n)%nat) by lia.
      pose proof (IHn ls ls' Hlt Ht c a [] [] Hc) as Hrel. unfold rel_res in Hrel.
      destruct (cb c a ls [] []) as [[s r]|e| |]; destruct (cb c a ls' [] []) as [[s' r']|e'| |] eqn:E2; cbn [bind fst snd]; try contradiction; try exact I.
      * destruct Hrel as (<- & Hr). apply cb_rest_len in E2.
        destruct (post_sub ty s); cbn [bind]; try exact I; try reflexivity. apply IHn; [lia|assumption|assumption].
      * subst e'. reflexivity.
    + destruct (is_ty ty (str "root")); [reflexivity|]. split; [reflexivity|exact Ht].
  - cbn [length] in Hlen. rewrite (cb_cons ty name l ls'). destruct Hi as [Hi|(c & a & Hi & Hno)]; rewrite Hi; cbn [bind].
    + apply IH; [lia|assumption].
    + destruct (options_of ty) as [os|] eqn:Eo; [|contradiction]. rewrite (Hno ty os Eo).
      apply IH; [lia|]. rewrite Eo. discriminate.
Qed.
Lemma cb_not_fuel n : forall ls, (length ls < n)%nat -> forall ty name sets subs, cb ty name ls sets subs <> Fuel.
Proof.
  induction n as [|n IH]; intros ls Hlen ty name sets subs; [lia|]. destruct ls as [|l ls].
  - rewrite cb_nil. destruct (is_ty ty (str "root")); discriminate.
  - cbn [length] in Hlen. rewrite cb_cons.
    assert (Hscan : forall ts, scan ts <> Fuel).
    { induction ts as [|t ts IHt]; cbn [scan]; [discriminate|]. destruct (end_flag t).
      - destruct ts as [|t2 ts]; [discriminate|]. destruct (is_hash t2); discriminate.
      - destruct (scan ts) as [[a b]| | |]; cbn [bind]; try discriminate; contradiction. }
    assert (Hparse : parse_line l <> Fuel).
    { unfold parse_line. specialize (Hscan (words l)). destruct (scan (words l)) as [[a b]| | |]; cbn [bind fst snd]; try discriminate; try contradiction.
      destruct a as [|x a]; [discriminate|]. destruct (is_hash x); [discriminate|]. destruct b as [k|]; [|discriminate].
      destruct a as [|y a]; [destruct k; discriminate|]. destruct (eqb_list x [123] || eqb_list x [125]); [discriminate|].
      destruct k; try discriminate. destruct (eqb_list (last (y :: a) []) [59]); discriminate. }
    destruct (parse_line l) as [p| | |]; cbn [bind]; try discriminate; [|contradiction].
    destruct p as [|c a|c a|].
    + apply IH; lia.
    + destruct (options_of ty) as [os|]; [|discriminate]. destruct (find_opt os c) as [[k d]|]; [|apply IH; lia].
      destruct k; try discriminate; cbn [opt_check bind]; try (apply IH; lia). destruct a; cbn [bind]; [discriminate|apply IH; lia].
    + destruct (is_ty c (str "location")); [discriminate|]. destruct (options_of c); [|discriminate].
      assert (Hlt : (length ls < n)%nat) by lia. pose proof (IH ls Hlt c a [] []) as Hsub.
      destruct (cb c a ls [] []) as [[s r]| | |] eqn:E; cbn [bind fst snd]; try discriminate; [|contradiction].
      apply cb_rest_len in E.
      assert (Hpost : post_sub ty s <> Fuel).
      { unfold post_sub. destruct (_ || _); [destruct (is_ty _ _); discriminate|]. destruct (_ || _); [destruct (_ && _); discriminate|].
        destruct (is_ty ty (str "host")); [destruct (_ || _); discriminate|discriminate]. }
      destruct (post_sub ty s); cbn [bind]; try discriminate; [apply IH; lia|contradiction].
    + destruct (is_ty ty (str "root")); discriminate.
Qed.

(** ** Lines are read one by one *)
Lemma lines_of_acc l : forall cur t, ~ In LF l -> lines_of cur (l ++ LF :: t) = (cur ++ l) :: lines_of [] t.
Proof.
  induction l as [|c l IH]; intros cur t H; cbn [app lines_of].
  - rewrite Z.eqb_refl, app_nil_r. reflexivity.
  - destruct (c =? LF) eqn:E; [exfalso; apply H; left; lia|].
    rewrite IH by (intros Hin; apply H; right; exact Hin). rewrite <- app_assoc. reflexivity.
Qed.
Lemma lines_of_last l : forall cur, ~ In LF l -> cur ++ l <> [] -> lines_of cur l = [cur ++ l].
Proof.
  induction l as [|c l IH]; intros cur H Hne; cbn [lines_of].
  - rewrite app_nil_r in *. destruct cur; [contradiction|reflexivity].
  - destruct (c =? LF) eqn:E; [exfalso; apply H; left; lia|].
    rewrite IH.
    + rewrite <- app_assoc. reflexivity.
    + intros Hin; apply H; right; exact Hin.
    + rewrite <- app_assoc. exact Hne.
Qed.
Lemma lines_of_text ls last : Forall (fun l => ~ In LF l) ls -> ~ In LF last ->
  lines_of [] (concat (map (fun l => l ++ [LF]) ls) ++ last) = ls ++ match last with [] => [] | _ => [last] end.
Proof.
  intros Hf Hl. induction Hf as [|l ls H Hf IH]; cbn [map concat app].
  - destruct last as [|c last]; [reflexivity|]. rewrite lines_of_last; [reflexivity|exact Hl|discriminate].
  - rewrite <- !app_assoc. cbn [app]. rewrite lines_of_acc by exact H. cbn [app]. rewrite IH. reflexivity.
Qed.
Lemma conf_lines_parse f : forall ty name ls sets subs m rest,
  conf_body f ty name ls sets subs = Ok (m, rest) ->
  exists used, ls = used ++ rest /\ Forall (fun l => exists x, parse_line l = Ok x) used /\
    (is_ty ty (str "root") = true -> rest = []).
Proof.
  induction f as [|f IH]; intros ty name ls sets subs m rest H; [discriminate|]. cbn [conf_body] in H.
  destruct ls as [|l ls].
  - destruct (is_ty ty (str "root")) eqn:Er; [|discriminate]. injection H as _ <-. exists []. repeat split; constructor.
  - destruct (parse_line l) as [p| | |] eqn:Ep; cbn [bind] in H; try discriminate.
    assert (Hl : exists x, parse_line l = Ok x) by eauto.
    assert (Hone : (exists used, ls = used ++ rest /\ Forall (fun l => exists x, parse_line l = Ok x) used /\ (is_ty ty (str "root") = true -> rest = [])) ->
      exists used, l :: ls = used ++ rest /\ Forall (fun l => exists x, parse_line l = Ok x) used /\ (is_ty ty (str "root") = true -> rest = [])).
    { intros (u & -> & F & R). exists (l :: u). split; [reflexivity|]. split; [constructor; assumption|exact R]. }
    destruct p as [|c a|c a|].
    + apply Hone. exact (IH _ _ _ _ _ _ _ H).
    + apply Hone. destruct (options_of ty) as [os|]; [|discriminate]. destruct (find_opt os c) as [[k d]|]; [|exact (IH _ _ _ _ _ _ _ H)].
      destruct k; try discriminate; (destruct (opt_check _ a); cbn [bind] in H; try discriminate; exact (IH _ _ _ _ _ _ _ H)).
    + destruct (is_ty c (str "location")); [discriminate|]. destruct (options_of c); [|discriminate].
      destruct (conf_body f c a ls [] []) as [[s r]| | |] eqn:E; cbn [bind fst snd] in H; try discriminate.
      destruct (post_sub ty s); cbn [bind] in H; try discriminate.
      destruct (IH _ _ _ _ _ _ _ E) as (u1 & -> & F1 & _). destruct (IH _ _ _ _ _ _ _ H) as (u2 & -> & F2 & R2).
      exists (l :: u1 ++ u2). split; [rewrite app_comm_cons, app_assoc; reflexivity|]. split; [|exact R2].
      constructor; [exact Hl|]. apply Forall_app. split; assumption.
    + destruct (is_ty ty (str "root")) eqn:Er; [discriminate|]. injection H as _ <-. exists [l].
      split; [reflexivity|]. split; [constructor; [exact Hl|constructor]|discriminate].
Qed.
Lemma init_lines_parse ls m : init_conf ls = Ok m -> Forall (fun l => exists x, parse_line l = Ok x) ls.
Proof.
  unfold init_conf. destruct (conf_body _ _ _ _ _ _) as [[m' r]| | |] eqn:E; cbn [bind]; intros H; try discriminate.
  destruct (conf_lines_parse _ _ _ _ _ _ _ _ E) as (u & -> & F & R). rewrite (R eq_refl), app_nil_r. exact F.
Qed.
Definition same_parse (ls ls' : list (list Z)) : Prop := Forall2 (fun l l' => parse_line l = parse_line l') ls ls'.
Definition same_res (a b : res (cmod * list (list Z))) : Prop :=
  match a, b with
  | Ok (m, r), Ok (m', r') => m = m' /\ same_parse r r'
  | Err e, Err e' => e = e'
  | UB, UB => True
  | Fuel, Fuel => True
  | _, _ => False
  end.
Lemma cb_same n : forall ls ls', (length ls < n)%nat -> same_parse ls ls' -> forall ty name sets subs,
  same_res (cb ty name ls sets subs) (cb ty name ls' sets subs).
Proof.
  induction n as [|n IH]; intros ls ls' Hlen Hs ty name sets subs; [lia|]. destruct Hs as [|l l' ls ls' Hl Hs].
  - rewrite cb_nil. destruct (is_ty ty (str "root")); cbn; [split; [reflexivity|constructor]|reflexivity].
  - cbn [length] in Hlen. rewrite !cb_cons, <- Hl. destruct (parse_line l) as [p| | |]; cbn [bind]; try exact I; try reflexivity.
    destruct p as [|c a|c a|].
    + apply IH; [lia|assumption].
    + destruct (options_of ty) as [os|]; [|reflexivity]. destruct (find_opt os c) as [[k d]|]; [|apply IH; [lia|assumption]].
      destruct k; try reflexivity; (destruct (opt_check _ a); cbn [bind]; try exact I; try reflexivity; apply IH; [lia|assumption]).
    + destruct (is_ty c (str "location")); [exact I|]. destruct (options_of c) as [os|]; [|reflexivity].
      assert (Hlt : (length ls < n)%nat) by lia.
      pose proof (IH ls ls' Hlt Hs c a [] []) as Hrel. unfold same_res in Hrel.
      destruct (cb c a ls [] []) as [[s r]|e| |] eqn:E1; destruct (cb c a ls' [] []) as [[s' r']|e'| |]; cbn [bind fst snd]; try contradiction; try exact I.
      * destruct Hrel as (<- & Hr). apply cb_rest_len in E1.
        destruct (post_sub ty s); cbn [bind]; try exact I; try reflexivity. apply IH; [lia|assumption].
      * subst e'. reflexivity.
    + destruct (is_ty ty (str "root")); [reflexivity|]. split; [reflexivity|exact Hs].
Qed.
Lemma init_same ls ls' : same_parse ls ls' -> init_conf ls = init_conf ls'.
Proof.
  intros H. rewrite !init_conf_cb. pose proof (cb_same (S (length ls)) ls ls' (Nat.lt_succ_diag_r _) H (str "root") [] [] []) as Hr.
  unfold same_res in Hr. destruct (cb (str "root") [] ls [] []) as [[m r]|e| |]; destruct (cb (str "root") [] ls' [] []) as [[m' r']|e'| |]; try contradiction; cbn [bind fst]; try reflexivity.
  - destruct Hr as (<- & _). reflexivity.
  - subst. reflexivity.
Qed.
Lemma same_parse_mid a l l' b : parse_line l = parse_line l' -> same_parse (a ++ l :: b) (a ++ l' :: b).
Proof.
  intros H. induction a as [|x a IH]; cbn [app].
  - constructor; [exact H|]. induction b; constructor; [reflexivity|assumption].
  - constructor; [reflexivity|exact IH].
Qed.
Lemma init_thinner ls ls' : thinner ls ls' -> init_conf ls = init_conf ls'.
Proof.
  intros H. rewrite !init_conf_cb.
  assert (Hroot : options_of (str "root") <> None) by discriminate.
  pose proof (cb_thinner (S (length ls')) ls ls' (Nat.lt_succ_diag_r _) H (str "root") [] [] [] Hroot) as Hr.
  unfold rel_res in Hr. destruct (cb (str "root") [] ls [] []) as [[m r]|e| |]; destruct (cb (str "root") [] ls' [] []) as [[m' r']|e'| |]; try contradiction; cbn [bind fst]; try reflexivity.
  - destruct Hr as (<- & _). reflexivity.
  - subst. reflexivity.
Qed.
Lemma thinner_refl ls : thinner ls ls.
Proof. induction ls; constructor; assumption. Qed.
Lemma thinner_mid a l b : idle l -> thinner (a ++ b) (a ++ l :: b).
Proof.
  intros H. induction a as [|x a IH]; cbn [app]; [apply th_idle; [exact H|apply thinner_refl]|apply th_keep, IH].
Qed.
(** A comment with an ended word before another word. *)
Lemma scan_two_ends ws w v tail k : Forall unended ws -> end_flag w = Some k -> ~ hash v ->
  scan (ws ++ w :: v :: tail) = Err ERROR_CONFIG_PARSE_INVALID.
Proof.
  intros Hu Hk Hv. induction Hu as [|u ws Hu' Hu IH]; cbn [app scan].
  - rewrite Hk, (is_hash_not v Hv). reflexivity.
  - rewrite (end_flag_unended u Hu'), IH. reflexivity.
Qed.
Lemma ends_flag w c : ends_in w c -> In c [59; 123; 125] -> exists k, end_flag w = Some k.
Proof.
  intros (w' & ->) Hin. rewrite end_flag_app. cbn [In] in Hin.
  destruct Hin as [<-|[<-|[<-|[]]]]; cbn; eauto.
Qed.
(** ** Values *)
Lemma last_set_app k a b d : last_set k (a ++ b) d = last_set k b (last_set k a d).
Proof. revert d. induction a as [|h a IH]; intros d; [reflexivity|]. cbn [app last_set]. apply IH. Qed.
Lemma last_set_none k l d : ~ In k (map fst l) -> last_set k l d = d.
Proof.
  revert d. induction l as [|h l IH]; intros d H; [reflexivity|]. cbn [last_set map] in *.
  rewrite eqb_list_neq by (intros E; apply H; left; exact E). apply IH. intros Hin. apply H. right. exact Hin.
Qed.
Lemma settings_app t a b : settings t (a ++ b) = settings t a ++ settings t b.
Proof. unfold settings. apply flat_map_app. Qed.
Lemma settings_keys t k es : (forall vs, ~ In (EItem k vs) es) -> ~ In k (map fst (settings t es)).
Proof.
  intros H Hin. apply in_map_iff in Hin. destruct Hin as ((k' & v) & E & Hin). cbn [fst] in E. subst k'.
  unfold settings in Hin. apply in_flat_map in Hin. destruct Hin as (e & He & Hin).
  destruct e as [n vs|]; [|destruct Hin]. destruct (option_kind t n); [|destruct Hin].
  destruct Hin as [Hin|[]]. injection Hin as -> _. exact (H vs He).
Qed.
Lemma conf_number ds : ds <> [] -> Forall (fun c => 48 <= c <= 57) ds -> dec_value ds 0 < 2 ^ 31 -> atoi ds = dec_value ds 0.
Proof.
  intros Hne Hd Hlt. destruct ds as [|c ds]; [contradiction|].
  assert (Hpos : forall l acc, Forall (fun c => 48 <= c <= 57) l -> 0 <= acc -> 0 <= dec_value l acc).
  { induction l as [|x l IH]; intros acc Hf Ha; cbn [dec_value]; [lia|]. apply IH; [exact (Forall_inv_tail Hf)|]. pose proof (Forall_inv Hf). cbn beta in H. lia. }
  pose proof (Forall_inv Hd) as Hc. cbn beta in Hc. unfold atoi, skip_space.
  replace (is_space c) with false by (unfold is_space; lia). unfold sign_of.
  destruct (c =? 45) eqn:E1; [lia|]. destruct (c =? 43) eqn:E2; [lia|].
  rewrite numrun_dec by exact Hd. pose proof (Hpos (c :: ds) 0 Hd ltac:(lia)) as H0.
  rewrite Z.min_r by lia. unfold s32, u32. rewrite Z.mod_small by lia. lia.
Qed.
(** ** For the examples *)
Ltac isword := split; [discriminate|match goal with |- Forall _ ?w => let e := eval vm_compute in w in change w with e end;
  repeat (apply Forall_cons; [unfold blank; lia|]); apply Forall_nil].
Ltac isunended := repeat split; (let w := fresh in let H := fresh in intros (w & H);
  apply (f_equal (@rev Z)) in H; rewrite rev_app_distr in H; cbn in H; discriminate H).
Ltac istok := match goal with |- tokens ?l ?ws => let H := fresh in
  pose proof (words_tokens l) as H; let e := eval vm_compute in (words l) in change (words l) with e in H;
  let w2 := eval vm_compute in ws in change ws with w2; exact H end.
Ltac isplain := split; [isword|isunended].
Ltac nohash := let w := fresh in let H := fresh in intros (w & H); discriminate H.
