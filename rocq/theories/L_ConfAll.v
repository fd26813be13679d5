(** Lemmas for C241. *)
From Verif Require Import Base M_Text M_Conf S_Url L_Url S_Conf L_Conf S_ConfAll.

(** ** Lines *)
Definition says_of (x : cline) : says :=
  match x with LSkip => Nothing | LItem c a => Sets c a | LStart c a => Opens c a | LEnd => Closes end.
Definition code_of (k : linekind) : Z := match k with KItem => 59 | KStart => 123 | KEnd => 125 end.
Lemma end_flag_code w k : end_flag w = Some k -> ends_in w (code_of k).
Proof.
  intros H. apply end_flag_some in H. destruct H as (c & Hc & [[-> ->]|[[-> ->]|[-> ->]]]); exact Hc.
Qed.
Lemma code_end_flag w k : ends_in w (code_of k) -> end_flag w = Some k.
Proof. intros (w' & ->). rewrite end_flag_app. destruct k; reflexivity. Qed.
Lemma code_in k : In (code_of k) [59; 123; 125].
Proof. destruct k; cbn; auto. Qed.
Lemma in_code c : In c [59; 123; 125] -> exists k, c = code_of k.
Proof. cbn. intros [<-|[<-|[<-|[]]]]; [exists KItem|exists KStart|exists KEnd]; reflexivity. Qed.
Lemma scan_clause ts a o : scan ts = Ok (a, o) -> clause ts a (option_map code_of o).
Proof.
  intros H. apply scan_inv in H. destruct o as [k|].
  - destruct H as (ws & w & tail & -> & -> & Hu & Hk & Ht). apply cl_ended; [exact Hu|apply end_flag_code, Hk|apply code_in|exact Ht].
  - destruct H as (-> & Hu). apply cl_open, Hu.
Qed.
Lemma clause_scan ts a o : clause ts a o -> exists k, o = option_map code_of k /\ scan ts = Ok (a, k).
Proof.
  intros [ws Hu|a' w c tail Hu Hw Hc Ht].
  - exists None. split; [reflexivity|]. apply scan_open, Hu.
  - destruct (in_code c Hc) as (k & ->). exists (Some k). split; [reflexivity|]. apply scan_ended; [exact Hu|apply code_end_flag, Hw|exact Ht].
Qed.
Lemma tokens_det l ws : tokens l ws -> ws = words l.
Proof. intros H. symmetry. apply tokens_words, H. Qed.
Lemma clause_words l a o : clause (words l) a o -> Forall (fun w => w <> []) a.
Proof.
  intros H. pose proof (words_word l) as W. assert (exists t, words l = a ++ t) as (t & E).
  { destruct H as [ws|a' w c tail]; [exists []; rewrite app_nil_r; reflexivity|exists tail; rewrite <- app_assoc; reflexivity]. }
  rewrite E in W. apply Forall_app in W. destruct W as [W _]. eapply Forall_impl; [|exact W]. intros w [Hw _]. exact Hw.
Qed.
Lemma item_value mid v : Forall (fun w => w <> []) mid ->
  (if eqb_list (v ++ [59]) [59] then fold_left arg_add mid []
   else match fold_left arg_add mid [] with [] => [] | _ => fold_left arg_add mid [] ++ [SP] end ++ removelast (v ++ [59])) = spaced (value_words mid v).
Proof.
  intros Hm. rewrite fold_arg_spaced by exact Hm. unfold value_words. destruct v as [|x v].
  - cbn [app]. rewrite eqb_list_refl, app_nil_r. reflexivity.
  - rewrite eqb_list_neq by (intros E; destruct v; discriminate E). rewrite removelast_last.
    destruct (spaced mid) as [|y z] eqn:E.
    + apply spaced_nil in E; [|exact Hm]. subst mid. reflexivity.
    + rewrite <- E, spaced_snoc by (intros ->; discriminate E). rewrite <- app_assoc. reflexivity.
Qed.
Lemma clause_two ws w m more o : clause ws (w :: m :: more) o -> unended w.
Proof.
  intros H. remember (w :: m :: more) as a eqn:E. destruct H as [ws Hu|a' w' c tail Hu Hw Hc Ht].
  - subst ws. inversion Hu; assumption.
  - destruct a' as [|x a']; [discriminate|]. injection E as -> _. inversion Hu; assumption.
Qed.
Lemma parse_says l x : parse_line l = Ok x -> line_says l (says_of x).
Proof.
  intros H. pose proof (words_tokens l) as Ht. unfold parse_line in H.
  destruct (scan (words l)) as [[a ok]| | |] eqn:Es; cbn in H; try discriminate.
  pose proof (scan_clause _ _ _ Es) as Hc. pose proof (clause_words l _ _ Hc) as Hne.
  destruct a as [|cmd more].
  - injection H as <-. cbn. apply ls_empty. apply scan_inv in Es. destruct ok as [k|].
    + destruct Es as (ws & w & tail & _ & E & _). destruct ws; discriminate.
    + destruct Es as (E & _). rewrite E. exact Ht.
  - destruct (is_hash cmd) eqn:Eh.
    + injection H as <-. eapply ls_comment; [exact Ht|exact Hc|]. apply is_hash_hash, Eh.
    + assert (Hh : ~ hash cmd) by (intros K; apply is_hash_hash in K; congruence).
      destruct ok as [k|]; [|discriminate]. cbn [option_map] in Hc. destruct more as [|m more].
      * destruct k; try discriminate. injection H as <-. eapply ls_closes; eassumption.
      * destruct (eqb_list cmd [123] || eqb_list cmd [125]); [discriminate|].
        destruct (exists_last (l:=m :: more) ltac:(discriminate)) as (mid & b & Em). rewrite Em in *. rewrite last_last, removelast_last in H.
        apply Forall_inv_tail in Hne. apply Forall_app in Hne. destruct Hne as [Hne _].
        destruct k.
        -- assert (exists v, b = v ++ [59]) as (v & ->).
           { remember (cmd :: mid ++ [b]) as a eqn:Ea. remember (Some (code_of KItem)) as o eqn:Eo. destruct Hc as [|a' w c tail Hu Hw]; [discriminate|].
             injection Eo as ->. destruct Hw as (v & ->). rewrite app_comm_cons in Ea. apply app_inj_tail in Ea. destruct Ea as [_ <-]. exists v. reflexivity. }
           pose proof (item_value mid v Hne) as Hv. destruct (eqb_list (v ++ [59]) [59]); injection H as <-; cbn [says_of]; rewrite Hv; eapply ls_sets; eassumption.
        -- injection H as <-. cbn [says_of]. rewrite fold_arg_spaced by exact Hne. eapply ls_opens; eassumption.
        -- injection H as <-. eapply ls_closes; eassumption.
Qed.
Lemma says_parse l s : line_says l s -> exists x, parse_line l = Ok x /\ s = says_of x.
Proof.
  assert (G : forall ws w more k, tokens l ws -> clause ws (w :: more) k -> words l = ws /\ exists k', k = option_map code_of k' /\ scan ws = Ok (w :: more, k') /\ Forall (fun w => w <> []) (w :: more)).
  { intros ws w more k Ht Hc. pose proof (tokens_det _ _ Ht) as ->. split; [reflexivity|]. pose proof (clause_words _ _ _ Hc) as Hne.
    destruct (clause_scan _ _ _ Hc) as (k' & K1 & K2). eauto. }
  assert (B : forall ws w m more k, clause ws (w :: m :: more) k -> eqb_list w [123] || eqb_list w [125] = false).
  { intros ws w m more k Hc. pose proof (clause_two _ _ _ _ _ Hc) as Hu.
    rewrite (eqb_list_neq w [123]) by (intros ->; apply (proj1 (proj2 Hu)); exists []; reflexivity).
    rewrite (eqb_list_neq w [125]) by (intros ->; apply (proj2 (proj2 Hu)); exists []; reflexivity). reflexivity. }
  intros [Ht|ws w more k Ht Hc Hh|ws w more Ht Hc Hh|ws w mid b Ht Hc Hh|ws w mid v Ht Hc Hh].
  - apply tokens_det in Ht. exists LSkip. split; [|reflexivity]. unfold parse_line. rewrite <- Ht. reflexivity.
  - destruct (G _ _ _ _ Ht Hc) as (E & k' & _ & Es & _). exists LSkip. split; [|reflexivity]. unfold parse_line. rewrite E, Es. cbn.
    apply is_hash_hash in Hh. rewrite Hh. reflexivity.
  - destruct (G _ _ _ _ Ht Hc) as (E & k' & Ek & Es & _). exists LEnd. split; [|reflexivity]. unfold parse_line. rewrite E, Es. cbn.
    rewrite (is_hash_not _ Hh). destruct k' as [[]|]; try discriminate. destruct more as [|m more]; [reflexivity|]. rewrite (B _ _ _ _ _ Hc). reflexivity.
  - destruct (G _ _ _ _ Ht Hc) as (E & k' & Ek & Es & Hne). exists (LStart w (spaced mid)). split; [|reflexivity]. unfold parse_line. rewrite E, Es. cbn [bind fst snd].
    rewrite (is_hash_not _ Hh). destruct k' as [[]|]; try discriminate. apply Forall_inv_tail in Hne. apply Forall_app in Hne. destruct Hne as [Hne _].
    destruct (mid ++ [b]) as [|m more] eqn:Em; [destruct mid; discriminate|]. rewrite (B _ _ _ _ _ Hc). rewrite <- Em, removelast_last, fold_arg_spaced by exact Hne. reflexivity.
  - destruct (G _ _ _ _ Ht Hc) as (E & k' & Ek & Es & Hne). exists (LItem w (spaced (value_words mid v))). split; [|reflexivity]. unfold parse_line. rewrite E, Es. cbn [bind fst snd].
    rewrite (is_hash_not _ Hh). destruct k' as [[]|]; try discriminate. apply Forall_inv_tail in Hne. apply Forall_app in Hne. destruct Hne as [Hne _].
    destruct (mid ++ [v ++ [59]]) as [|m more] eqn:Em; [destruct mid; discriminate|]. rewrite (B _ _ _ _ _ Hc). rewrite <- Em, removelast_last, last_last.
    rewrite <- (item_value mid v Hne). destruct (eqb_list (v ++ [59]) [59]); reflexivity.
Qed.
Lemma says_fun l s s' : line_says l s -> line_says l s' -> s = s'.
Proof. intros H H'. apply says_parse in H, H'. destruct H as (x & E & ->), H' as (x' & E' & ->). rewrite E in E'. injection E' as <-. reflexivity. Qed.
Lemma parse_not_ub l : parse_line l <> UB /\ parse_line l <> Fuel.
Proof.
  assert (Hscan : forall ts, scan ts <> UB /\ scan ts <> Fuel).
  { induction ts as [|t ts IHt]; cbn [scan]; [split; discriminate|]. destruct (end_flag t).
    - destruct ts as [|t2 ts]; [split; discriminate|]. destruct (is_hash t2); split; discriminate.
    - destruct (scan ts) as [[a b]| | |]; cbn [bind]; try (split; discriminate); exact IHt. }
  unfold parse_line. specialize (Hscan (words l)). destruct (scan (words l)) as [[a b]| | |]; cbn [bind fst snd]; try (split; discriminate); try (exfalso; destruct Hscan; congruence).
  destruct a as [|x a]; [split; discriminate|]. destruct (is_hash x); [split; discriminate|]. destruct b as [k|]; [|split; discriminate].
  destruct a as [|y a]; [destruct k; split; discriminate|]. destruct (eqb_list x [123] || eqb_list x [125]); [split; discriminate|].
  destruct k; try (split; discriminate). destruct (eqb_list (last (y :: a) []) [59]); split; discriminate.
Qed.

(** ** The blocks as a stack *)
Definition may (o t n : list Z) : bool := match post_sub o (CMod t n [] []) with Ok _ => true | _ => false end.
Lemma post_may o m : post_sub o m = if may o (cm_type m) (cm_name m) then Ok tt else match post_sub o m with Err c => Err c | _ => Err 0 end.
Proof.
  destruct m as [t n sets subs]. unfold may, post_sub. cbn [cm_type cm_name].
  destruct (is_ty o (str "http") || is_ty o (str "rtmp") || is_ty o (str "srt")); [destruct (is_ty t (str "server")); reflexivity|].
  destruct (is_ty o (str "server") || is_ty o (str "globalhost")); [destruct (is_ty t (str "host") && negb (zlen n =? 0)); reflexivity|].
  destruct (is_ty o (str "host")); [|reflexivity]. destruct (is_ty t (str "stream") || is_ty t (str "upstream")); reflexivity.
Qed.
Lemma may_nests o t n : may o t n = true <-> nests o t n.
Proof.
  unfold may. split.
  - intros H. apply (post_nests o (CMod t n [] [])). destruct (post_sub o (CMod t n [] [])) as [[]| | |]; try discriminate. reflexivity.
  - intros H. rewrite (nests_post o (CMod t n [] []) H). reflexivity.
Qed.
Fixpoint ends (st : list (list Z * list Z)) : verdict :=
  match st with
  | [] => Refused
  | (t, n) :: st' => if is_ty t (str "root") then match st' with [] => Accepted | (o, _) :: _ => if may o t n then ends st' else Refused end else Refused
  end.
Fixpoint judge (st : list (list Z * list Z)) (ls : list (list Z)) : verdict :=
  match ls with
  | [] => ends st
  | l :: ls' =>
      match st with
      | [] => Refused
      | (t, n) :: st' =>
          match parse_line l with
          | Ok LSkip => judge st ls'
          | Ok LEnd => if is_ty t (str "root") then Refused else
              match st' with [] => Refused | (o, _) :: _ => if may o t n then judge st' ls' else Refused end
          | Ok (LItem c a) =>
              match options_of t with
              | None => Refused
              | Some os => match find_opt os c with
                  | None => judge st ls'
                  | Some (OSub, _) => Refused
                  | Some (OBool, _) => match a with [] => Outside | _ => judge st ls' end
                  | Some _ => judge st ls'
                  end
              end
          | Ok (LStart c a) => if is_ty c (str "location") then Outside else match options_of c with None => Refused | Some _ => judge ((c, a) :: st) ls' end
          | _ => Refused
          end
      end
  end.
Lemma judge_cb k : forall ls, (length ls < k)%nat -> forall t n sets subs,
  match cb t n ls sets subs with
  | Ok (m, rest) => cm_type m = t /\ cm_name m = n /\ (is_ty t (str "root") = true -> rest = []) /\
      forall st, judge ((t, n) :: st) ls = match st with [] => if is_ty t (str "root") then Accepted else Refused | (o, _) :: _ => if may o t n then judge st rest else Refused end
  | Err _ => forall st, judge ((t, n) :: st) ls = Refused
  | UB => forall st, judge ((t, n) :: st) ls = Outside
  | Fuel => False
  end.
Proof.
  induction k as [|k IH]; intros ls Hl t n sets subs; [lia|]. destruct ls as [|l ls].
  - rewrite cb_nil. destruct (is_ty t (str "root")) eqn:Et.
    + split; [reflexivity|]. split; [reflexivity|]. split; [reflexivity|]. intros [|[o m] st]; cbn [judge ends]; rewrite Et; reflexivity.
    + intros st. cbn [judge ends]. rewrite Et. reflexivity.
  - cbn [length] in Hl. rewrite cb_cons. cbn [judge]. destruct (parse_not_ub l) as [P1 P2].
    destruct (parse_line l) as [p| | |]; cbn [bind]; try reflexivity; try contradiction. destruct p as [|c a|c a|].
    + apply IH. lia.
    + destruct (options_of t) as [os|]; [|reflexivity]. destruct (find_opt os c) as [[o d]|]; [|apply IH; lia].
      destruct o; cbn [opt_check bind]; try reflexivity; try (apply IH; lia). destruct a as [|x a]; cbn [bind]; [reflexivity|apply IH; lia].
    + destruct (is_ty c (str "location")); [reflexivity|]. destruct (options_of c) as [os|]; [|reflexivity].
      pose proof (IH ls ltac:(lia) c a [] []) as J. destruct (cb c a ls [] []) as [[m rest]|e| |] eqn:E; cbn [bind fst snd]; try (intros st; apply J); try contradiction.
      destruct J as (J1 & J2 & _ & J). pose proof (post_may t m) as Pm. rewrite J1, J2 in Pm. destruct (may t c a) eqn:Em.
      * rewrite Pm. cbn [bind]. apply cb_rest_len in E. pose proof (IH rest ltac:(lia) t n sets (subs ++ [m])) as J3.
        destruct (cb t n rest sets (subs ++ [m])) as [[m2 r2]|e| |]; try contradiction; [|intros st; rewrite J, Em; apply J3|intros st; rewrite J, Em; apply J3].
        destruct J3 as (K1 & K2 & K3 & K4). split; [exact K1|]. split; [exact K2|]. split; [exact K3|]. intros st. rewrite J, Em. apply K4.
      * destruct (post_sub t m) as [u|e| |]; try discriminate; cbn [bind]. intros st. rewrite J, Em. reflexivity.
    + destruct (is_ty t (str "root")) eqn:Et; [reflexivity|]. split; [reflexivity|]. split; [reflexivity|]. split; [discriminate|]. intros [|[o m] st]; reflexivity.
Qed.
Lemma init_judge ls : outcome (init_conf ls) = Some (judge [(str "root", [])] ls).
Proof.
  rewrite init_conf_cb. pose proof (judge_cb (S (length ls)) ls ltac:(lia) (str "root") [] [] []) as J.
  destruct (cb (str "root") [] ls [] []) as [[m rest]|e| |]; cbn [bind outcome]; try contradiction; [|rewrite J; reflexivity|rewrite J; reflexivity].
  destruct J as (_ & _ & _ & J). rewrite J. reflexivity.
Qed.

(** ** The stack machine and the relation *)
Lemma known_types u : In u (str "root" :: block_types) <-> options_of u <> None.
Proof.
  split.
  - intros [<-|H]; [discriminate|]. apply block_type_known, H.
  - unfold options_of. intros H.
    destruct (eqb_list u (str "root")) eqn:E; [apply eqb_list_spec in E; subst; cbn; auto|].
    repeat match type of H with
    | context [eqb_list u ?s] => let E := fresh in destruct (eqb_list u s) eqn:E; [apply eqb_list_spec in E; subst; cbn; auto 12|]
    end. cbn in H. congruence.
Qed.
Lemma judge_fate ls : forall st, st <> [] -> fst (last st ([], [])) = str "root" -> Forall (fun f => options_of (fst f) <> None) st -> fate st ls (judge st ls).
Proof.
  induction ls as [|l ls IH]; intros st Hst Hb Hk.
  - cbn [judge]. clear Hk Hb. induction st as [|[t n] st IHs]; [contradiction|]. cbn [ends]. destruct (is_ty t (str "root")) eqn:Et.
    + apply is_ty_true in Et. subst t. destruct st as [|[o m] st]; [constructor|]. destruct (may o (str "root") n) eqn:Em.
      * apply ft_end_root; [apply may_nests, Em|]. apply IHs. discriminate.
      * apply ft_end_misplaced. intros K. apply may_nests in K. congruence.
    + apply ft_end_open. intros ->. discriminate Et.
  - destruct st as [|[t n] st]; [contradiction|]. cbn [judge]. destruct (parse_not_ub l) as [P1 P2].
    destruct (parse_line l) as [p|e| |] eqn:E; try contradiction.
    2:{ apply ft_bad. intros s K. apply says_parse in K. destruct K as (x & K & _). congruence. }
    apply parse_says in E. destruct p as [|c a|c a|]; cbn [says_of] in E.
    + apply ft_nothing; [exact E|apply IH; assumption].
    + pose proof (Forall_inv Hk) as Ht. cbn [fst] in Ht. destruct (options_of t) as [os|] eqn:Eo; [|contradiction].
      assert (Hok : option_kind t c = match find_opt os c with Some (k, _) => Some k | None => None end) by (unfold option_kind; rewrite Eo; reflexivity).
      destruct (find_opt os c) as [[o d]|]; [|eapply ft_unknown; [exact E|exact Hok|apply IH; assumption]].
      destruct o; try (eapply ft_set; [exact E|exact Hok|discriminate|discriminate|apply IH; assumption]).
      * destruct a as [|x a]; [eapply ft_no_value; eassumption|]. eapply ft_set; [exact E|exact Hok|discriminate|discriminate|apply IH; assumption].
      * eapply ft_block_name; eassumption.
    + destruct (is_ty c (str "location")) eqn:El; [apply is_ty_true in El; subst c; eapply ft_location; exact E|].
      destruct (options_of c) as [os|] eqn:Eo.
      * eapply ft_open; [exact E|apply known_types; congruence|]. apply IH; [discriminate|exact Hb|]. constructor; [cbn; congruence|exact Hk].
      * eapply ft_unknown_block; [exact E|intros ->; discriminate El|]. rewrite known_types. congruence.
    + destruct (is_ty t (str "root")) eqn:Et; [apply is_ty_true in Et; subst t; apply ft_close_root, E|].
      assert (t <> str "root") by (intros ->; discriminate Et).
      destruct st as [|[o m] st]; [contradiction|]. apply Forall_inv_tail in Hk. destruct (may o t n) eqn:Em.
      * eapply ft_close; [exact E|assumption|apply may_nests, Em|]. apply IH; [discriminate|exact Hb|exact Hk].
      * eapply ft_misplaced; [exact E|assumption|]. intros K. apply may_nests in K. congruence.
Qed.
Lemma loc_unknown : ~ In (str "location") (str "root" :: block_types).
Proof. rewrite known_types. intros H. apply H. reflexivity. Qed.
Ltac same_says := match goal with H : line_says ?l ?a, K : line_says ?l ?b |- _ => pose proof (says_fun _ _ _ H K) as X; try discriminate X; try (injection X as X1 X2); subst; try clear H end.
Lemma fate_fun st ls v : fate st ls v -> forall v', fate st ls v' -> v = v'.
Proof.
  induction 1 as [t n st l ls B|t n st l ls v S F IH|t n st l ls k x v S O F IH|t n st l ls k x S O|t n st l ls k S O|t n st l ls k x o v S O N V F IH
    |t n st l ls m S|t n st l ls u m S N U|t n st l ls u m v S U F IH|t n o m st l ls v S R N F IH|t n o m st l ls S R N|n st l ls S|n|t n st R|n o m st v N F IH|n o m st N];
  intros v' K; inversion K; subst; try reflexivity; try (exfalso; eapply B; eassumption); try (exfalso; match goal with H : forall s, ~ line_says _ s |- _ => eapply H; eassumption end);
  try same_says; try congruence; try (apply IH; assumption); try contradiction.
  - exfalso. apply H8; [congruence|reflexivity].
  - exfalso. apply V; [congruence|reflexivity].
  - exfalso. apply loc_unknown. assumption.
  - exfalso. apply loc_unknown. assumption.
Qed.
Lemma bool_options t k : option_kind t k = Some OBool -> In k [str "enabled"; str "reuse_port"; str "edge"].
Proof.
  unfold option_kind, options_of. intros H.
  repeat match type of H with
  | context [eqb_list t ?s] => let E := fresh in destruct (eqb_list t s) eqn:E; cbn [orb] in H
  end;
  try discriminate H;
  cbn [find_opt root_options http_options srt_options server_options host_options globalhost_options stream_options upstream_options] in H;
  repeat match type of H with
  | context [eqb_list k ?s] => let E := fresh in destruct (eqb_list k s) eqn:E; [apply eqb_list_spec in E; subst k; first [discriminate H|cbn [In]; auto]|]
  end; try discriminate H.
Qed.
