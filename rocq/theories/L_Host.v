(** Lemmas about hosts and servers. *)
From Verif Require Import Base M_Text M_Url M_Conf M_Host S_Url L_Url S_Host.

Lemma hm_find_in k l h : hm_find k l = Some h -> In (k, h) l.
Proof.
  induction l as [|[k' h'] l IH]; cbn [hm_find fst snd]; [discriminate|].
  destruct (eqb_list k' k) eqn:E; intros H; [left|right; auto]. apply eqb_list_spec in E. congruence.
Qed.
Lemma hm_find_none k l : hm_find k l = None <-> ~ In k (map fst l).
Proof.
  induction l as [|[k' h'] l IH]; cbn [hm_find fst snd map In]; [tauto|].
  destruct (eqb_list k' k) eqn:E.
  - apply eqb_list_spec in E. split; [discriminate|]. intros H. exfalso. apply H. left. exact E.
  - rewrite IH. split; intros H; [|tauto]. intros [H1|H1]; [|tauto]. subst. rewrite eqb_list_refl in E. discriminate.
Qed.
Lemma hm_find_nodup k h l : NoDup (map fst l) -> In (k, h) l -> hm_find k l = Some h.
Proof.
  induction l as [|[k' h'] l IH]; cbn [map fst In]; intros Hn Hin; [contradiction|].
  inversion Hn as [|? ? Hni Hn']; subst. cbn [hm_find fst snd]. destruct Hin as [Hin|Hin].
  - injection Hin as -> ->. rewrite eqb_list_refl. reflexivity.
  - destruct (eqb_list k' k) eqn:E; [|apply IH; assumption]. apply eqb_list_spec in E. subst k'. exfalso. apply Hni.
    apply in_map_iff. exists (k, h). split; [reflexivity|exact Hin].
Qed.
Lemma hm_count_false k l : hm_count k l = false <-> ~ In k (map fst l).
Proof. unfold hm_count. rewrite <- hm_find_none. destruct (hm_find k l); split; intros H; congruence. Qed.
Lemma wildcard_key_dot a d : ~ In 46 a -> wildcard_key (a ++ 46 :: d) = rev (46 :: d).
Proof.
  intros H. unfold wildcard_key. rewrite find_char_first by exact H. rewrite drop_app_exact by reflexivity. reflexivity.
Qed.
Lemma wildcard_key_none q : ~ In 46 q -> wildcard_key q = [].
Proof. intros H. unfold wildcard_key. rewrite find_char_none by exact H. reflexivity. Qed.
Lemma dot_split q : ~ In 46 q \/ exists a d, q = a ++ 46 :: d /\ ~ In 46 a.
Proof.
  induction q as [|c q IH]; [left; intros []|]. destruct (Z.eq_dec c 46) as [->|Hc].
  - right. exists [], q. split; [reflexivity|intros []].
  - destruct IH as [IH|(a & d & -> & Ha)].
    + left. intros [H|H]; [congruence|contradiction].
    + right. exists (c :: a), d. split; [reflexivity|]. intros [H|H]; [congruence|contradiction].
Qed.
Lemma dot_split_inj a d a' d' : ~ In 46 a -> ~ In 46 a' -> a ++ 46 :: d = a' ++ 46 :: d' -> a = a' /\ d = d'.
Proof.
  revert a'. induction a as [|c a IH]; intros [|c' a'] H H' E; cbn [app] in E.
  - injection E as ->. split; reflexivity.
  - injection E as <- _. exfalso. apply H'. left. reflexivity.
  - injection E as -> _. exfalso. apply H. left. reflexivity.
  - injection E as -> E. destruct (IH a') as (-> & ->).
    + intros Hin. apply H. right. exact Hin.
    + intros Hin. apply H'. right. exact Hin.
    + exact E.
    + split; reflexivity.
Qed.

(** ** Kinds of names *)
Lemma name_cases n : no_nul n ->
  (exact_name n /\ (name_at n 0 =? 42) = false) \/
  (default_name n /\ (name_at n 0 =? 42) = true /\ (name_at n 1 =? 0) = true) \/
  (exists d, wild_name n d /\ (name_at n 0 =? 42) = true /\ (name_at n 1 =? 0) = false /\
     (negb (name_at n 1 =? 46) || (name_at n 2 =? 0)) = false) \/
  (~ valid_name n /\ (name_at n 0 =? 42) = true /\ (name_at n 1 =? 0) = false /\
     (negb (name_at n 1 =? 46) || (name_at n 2 =? 0)) = true).
Proof.
  intros Hn. unfold name_at. destruct n as [|c0 n]; [left; split; [intros n'; discriminate|reflexivity]|].
  cbn [nth]. destruct (c0 =? 42) eqn:E0.
  2: { left. split; [|reflexivity]. intros n' H. injection H as -> _. discriminate. }
  apply Z.eqb_eq in E0. subst c0. destruct n as [|c1 n].
  { right. left. split; [reflexivity|split; reflexivity]. }
  cbn [nth]. assert (H1 : (c1 =? 0) = false) by (destruct (c1 =? 0) eqn:E; [|reflexivity]; exfalso; apply Hn; right; left; lia).
  rewrite H1. destruct (c1 =? 46) eqn:E1; cbn [negb orb].
  - apply Z.eqb_eq in E1. subst c1. destruct n as [|c2 n].
    + right. right. right. split; [|repeat split]. intros [H|[(d & H & Hd)|H]].
      * exact (H _ eq_refl).
      * injection H as <-. contradiction.
      * discriminate.
    + cbn [nth]. assert (H2 : (c2 =? 0) = false) by (destruct (c2 =? 0) eqn:E; [|reflexivity]; exfalso; apply Hn; right; right; left; lia).
      rewrite H2. right. right. left. exists (c2 :: n). split; [split; [reflexivity|discriminate]|repeat split].
  - right. right. right. split; [|repeat split]. intros [H|[(d & H & Hd)|H]].
    + exact (H _ eq_refl).
    + injection H as -> _. discriminate.
    + discriminate.
Qed.

(** ** The router and the hosts it was built from *)
Record rt_of (r : hrouter) (hs : list cmod) : Prop := {
  ro_exact : forall k h, In (k, h) (rt_exact r) <-> In h hs /\ cm_name h = k /\ exact_name k;
  ro_wild : forall k h, In (k, h) (rt_wild r) <-> In h hs /\ exists d, wild_name (cm_name h) d /\ k = rev (46 :: d);
  ro_default : forall h, rt_default r = Some h <-> In h hs /\ default_name (cm_name h);
  ro_nd_exact : NoDup (map fst (rt_exact r));
  ro_nd_wild : NoDup (map fst (rt_wild r));
  ro_valid : Forall (fun h => valid_name (cm_name h)) hs;
  ro_nodup : NoDup (map cm_name hs)
}.
Lemma rt_new_of : rt_of rt_new [].
Proof.
  constructor; cbn; try constructor; try tauto; try (intros; discriminate); try (intros (H & _); destruct H).
Qed.
Lemma NoDup_snoc {A} (l : list A) x : NoDup l -> ~ In x l -> NoDup (l ++ [x]).
Proof.
  intros H Hx. induction H as [|y l Hy Hl IH]; cbn [app].
  - constructor; [intros []|constructor].
  - constructor.
    + intros Hin. apply in_app_or in Hin. destruct Hin as [Hin|[Hin|[]]]; [contradiction|]. subst. apply Hx. left. reflexivity.
    + apply IH. intros Hin. apply Hx. right. exact Hin.
Qed.
Lemma wild_not_exact n d : wild_name n d -> ~ exact_name n.
Proof. intros (-> & _) H. exact (H _ eq_refl). Qed.
Lemma default_not_exact n : default_name n -> ~ exact_name n.
Proof. intros -> H. exact (H _ eq_refl). Qed.
Lemma wild_not_default n d : wild_name n d -> ~ default_name n.
Proof. intros (-> & _). discriminate. Qed.
Lemma rev_dot_inj d d' : rev (46 :: d) = rev (46 :: d') -> d = d'.
Proof. intros H. apply (f_equal (@rev Z)) in H. rewrite !rev_involutive in H. congruence. Qed.

(** Registering: accepted exactly when the name is valid and new. *)
Lemma register_step r hs h : rt_of r hs -> no_nul (cm_name h) ->
  (valid_name (cm_name h) /\ ~ In (cm_name h) (map cm_name hs) /\
     exists r', register_host r h = Ok r' /\ rt_of r' (hs ++ [h])) \/
  (~ (valid_name (cm_name h) /\ ~ In (cm_name h) (map cm_name hs)) /\
     register_host r h = Err ERROR_CONFIG_PARSE_INVALID).
Proof.
  intros [He Hw Hd Hne Hnw Hv Hnd] Hn. unfold register_host.
  assert (Hvalid' : valid_name (cm_name h) -> Forall (fun x => valid_name (cm_name x)) (hs ++ [h])).
  { intros H. apply Forall_app. split; [exact Hv|]. constructor; [exact H|constructor]. }
  assert (Hnd' : ~ In (cm_name h) (map cm_name hs) -> NoDup (map cm_name (hs ++ [h]))).
  { intros H. rewrite map_app. apply NoDup_snoc; assumption. }
  destruct (name_cases _ Hn) as [(Hex & E0)|[(Hdef & E0 & E1)|[(d & Hwd & E0 & E1 & E2)|(Hbad & E0 & E1 & E2)]]];
    rewrite E0; cbn [negb]; try rewrite E1; try rewrite E2.
  - destruct (hm_count (cm_name h) (rt_exact r)) eqn:Ec.
    + right. split; [|reflexivity]. intros (_ & Hnew). unfold hm_count in Ec.
      destruct (hm_find (cm_name h) (rt_exact r)) as [h'|] eqn:Ef; [|discriminate].
      apply hm_find_in in Ef. apply He in Ef. destruct Ef as (Hin & Hnm & _). apply Hnew. rewrite <- Hnm. apply in_map. exact Hin.
    + apply hm_count_false in Ec.
      assert (Hnew : ~ In (cm_name h) (map cm_name hs)).
      { intros Hin. apply in_map_iff in Hin. destruct Hin as (h' & Hnm & Hin). apply Ec. apply in_map_iff. exists (cm_name h, h').
        split; [reflexivity|]. apply He. split; [exact Hin|split; [exact Hnm|exact Hex]]. }
      left. split; [left; exact Hex|]. split; [exact Hnew|]. eexists. split; [reflexivity|]. constructor; cbn [rt_exact rt_wild rt_default].
      * intros k x. rewrite in_app_iff, He, in_app_iff. cbn [In]. split.
        -- intros [(H1 & H2 & H3)|[H|[]]]; [split; [left; exact H1|split; assumption]|]. injection H as <- <-.
           split; [right; left; reflexivity|split; [reflexivity|exact Hex]].
        -- intros ([H1|[H1|[]]] & H2 & H3); [left; split; [exact H1|split; assumption]|]. subst x k. right. left. reflexivity.
      * intros k x. rewrite Hw, in_app_iff. cbn [In]. split.
        -- intros (H1 & H2). split; [left; exact H1|exact H2].
        -- intros ([H1|[H1|[]]] & H2); [split; [exact H1|exact H2]|]. subst x. destruct H2 as (d & H2 & _). exfalso. exact (wild_not_exact _ _ H2 Hex).
      * intros x. rewrite Hd, in_app_iff. cbn [In]. split.
        -- intros (H1 & H2). split; [left; exact H1|exact H2].
        -- intros ([H1|[H1|[]]] & H2); [split; [exact H1|exact H2]|]. subst x. exfalso. exact (default_not_exact _ H2 Hex).
      * rewrite map_app. apply NoDup_snoc; [exact Hne|exact Ec].
      * exact Hnw.
      * apply Hvalid'. left. exact Hex.
      * apply Hnd'. exact Hnew.
  - destruct (rt_default r) as [x|] eqn:Ed.
    + right. split; [|reflexivity]. intros (_ & Hnew). destruct (proj1 (Hd x) eq_refl) as (Hin & Hdx). apply Hnew.
      rewrite Hdef, <- Hdx. apply in_map. exact Hin.
    + assert (Hnew : ~ In (cm_name h) (map cm_name hs)).
      { intros Hin. apply in_map_iff in Hin. destruct Hin as (h' & Hnm & Hin).
        assert (Hx : In h' hs /\ default_name (cm_name h')) by (split; [exact Hin|unfold default_name; rewrite Hnm; exact Hdef]).
        apply Hd in Hx. discriminate. }
      left. split; [right; right; exact Hdef|]. split; [exact Hnew|]. eexists. split; [reflexivity|]. constructor; cbn [rt_exact rt_wild rt_default].
      * intros k x. rewrite He, in_app_iff. cbn [In]. split.
        -- intros (H1 & H2). split; [left; exact H1|exact H2].
        -- intros ([H1|[H1|[]]] & H2 & H3); [split; [exact H1|split; assumption]|]. subst x k. exfalso. exact (default_not_exact _ Hdef H3).
      * intros k x. rewrite Hw, in_app_iff. cbn [In]. split.
        -- intros (H1 & H2). split; [left; exact H1|exact H2].
        -- intros ([H1|[H1|[]]] & H2); [split; [exact H1|exact H2]|]. subst x. destruct H2 as (d & H2 & _). exfalso. exact (wild_not_default _ _ H2 Hdef).
      * intros x. rewrite in_app_iff. cbn [In]. split.
        -- intros H. injection H as <-. split; [right; left; reflexivity|exact Hdef].
        -- intros ([H1|[H1|[]]] & H2); [|subst x; reflexivity]. exfalso.
           assert (Hx : None = Some x) by (apply Hd; split; assumption). discriminate.
      * exact Hne.
      * exact Hnw.
      * apply Hvalid'. right. right. exact Hdef.
      * apply Hnd'. exact Hnew.
  - assert (Hk : wildcard_key (cm_name h) = rev (46 :: d)).
    { rewrite (proj1 Hwd). change (42 :: 46 :: d) with ([42] ++ 46 :: d). apply wildcard_key_dot. intros [H|[]]. discriminate. }
    rewrite Hk. destruct (hm_count (rev (46 :: d)) (rt_wild r)) eqn:Ec.
    + right. split; [|reflexivity]. intros (_ & Hnew). unfold hm_count in Ec.
      destruct (hm_find (rev (46 :: d)) (rt_wild r)) as [h'|] eqn:Ef; [|discriminate].
      apply hm_find_in in Ef. apply Hw in Ef. destruct Ef as (Hin & d' & Hw' & Hrev). apply rev_dot_inj in Hrev. subst d'.
      apply Hnew. rewrite (proj1 Hwd), <- (proj1 Hw'). apply in_map. exact Hin.
    + apply hm_count_false in Ec.
      assert (Hnew : ~ In (cm_name h) (map cm_name hs)).
      { intros Hin. apply in_map_iff in Hin. destruct Hin as (h' & Hnm & Hin). apply Ec. apply in_map_iff. exists (rev (46 :: d), h').
        split; [reflexivity|]. apply Hw. split; [exact Hin|]. exists d. split; [rewrite Hnm; exact Hwd|reflexivity]. }
      left. split; [right; left; exists d; exact Hwd|]. split; [exact Hnew|]. eexists. split; [reflexivity|]. constructor; cbn [rt_exact rt_wild rt_default].
      * intros k x. rewrite He, in_app_iff. cbn [In]. split.
        -- intros (H1 & H2). split; [left; exact H1|exact H2].
        -- intros ([H1|[H1|[]]] & H2 & H3); [split; [exact H1|split; assumption]|]. subst x k. exfalso. exact (wild_not_exact _ _ Hwd H3).
      * intros k x. rewrite in_app_iff, Hw, in_app_iff. cbn [In]. split.
        -- intros [(H1 & H2)|[H|[]]]; [split; [left; exact H1|exact H2]|]. injection H as <- <-.
           split; [right; left; reflexivity|]. exists d. split; [exact Hwd|reflexivity].
        -- intros ([H1|[H1|[]]] & H2); [left; split; [exact H1|exact H2]|]. subst x. destruct H2 as (d' & H2 & ->).
           right. left. f_equal. f_equal. f_equal. destruct Hwd as (E & _). destruct H2 as (E' & _). congruence.
      * intros x. rewrite Hd, in_app_iff. cbn [In]. split.
        -- intros (H1 & H2). split; [left; exact H1|exact H2].
        -- intros ([H1|[H1|[]]] & H2); [split; [exact H1|exact H2]|]. subst x. exfalso. exact (wild_not_default _ _ Hwd H2).
      * exact Hne.
      * rewrite map_app. apply NoDup_snoc; [exact Hnw|exact Ec].
      * apply Hvalid'. right. left. exists d. exact Hwd.
      * apply Hnd'. exact Hnew.
  - right. split; [|reflexivity]. intros (H & _). contradiction.
Qed.
Lemma register_all_spec hs : forall r hs0, rt_of r hs0 -> Forall (fun h => no_nul (cm_name h)) hs ->
  (exists r', register_all r hs = Ok r' /\ rt_of r' (hs0 ++ hs)) \/
  (register_all r hs = Err ERROR_CONFIG_PARSE_INVALID /\
   ~ (Forall (fun h => valid_name (cm_name h)) hs /\ NoDup (map cm_name (hs0 ++ hs)))).
Proof.
  induction hs as [|h hs IH]; intros r hs0 Hr Hn; cbn [register_all].
  - left. exists r. rewrite app_nil_r. split; [reflexivity|exact Hr].
  - destruct (register_step r hs0 h Hr (Forall_inv Hn)) as [(Hv & Hnew & r1 & E & Hr1)|(Hbad & E)]; rewrite E; cbn [bind].
    + destruct (IH r1 (hs0 ++ [h]) Hr1 (Forall_inv_tail Hn)) as [(r2 & E2 & Hr2)|(E2 & Hbad)].
      * left. exists r2. rewrite <- app_assoc in Hr2. split; assumption.
      * right. split; [exact E2|]. intros (Hf & Hnd). apply Hbad. split; [exact (Forall_inv_tail Hf)|]. rewrite <- app_assoc. exact Hnd.
    + right. split; [reflexivity|]. intros (Hf & Hnd). apply Hbad. split; [exact (Forall_inv Hf)|].
      rewrite map_app in Hnd. cbn [map] in Hnd. apply NoDup_remove_2 in Hnd. intros Hin. apply Hnd. apply in_or_app. left. exact Hin.
Qed.
Lemma get_router_of hs r : Forall (fun h => no_nul (cm_name h)) hs -> get_router hs = Ok r -> rt_of r hs.
Proof.
  intros Hn H. destruct (register_all_spec hs rt_new [] rt_new_of Hn) as [(r' & E & Hr)|(E & _)]; unfold get_router in H; rewrite E in H; [|discriminate].
  injection H as <-. exact Hr.
Qed.
Lemma find_host_serves r hs q : rt_of r hs -> serves hs q (find_host r q).
Proof.
  intros [He Hw Hd Hne Hnw Hv Hnd]. unfold find_host.
  destruct (hm_find q (rt_exact r)) as [h|] eqn:Ef.
  { apply hm_find_in in Ef. apply He in Ef. destruct Ef as (H1 & H2 & H3). apply sv_exact; assumption. }
  apply hm_find_none in Ef.
  assert (Hnoex : exact_name q -> ~ In q (map cm_name hs)).
  { intros Hq Hin. apply Ef. apply in_map_iff in Hin. destruct Hin as (h & Hnm & Hin). apply in_map_iff. exists (q, h).
    split; [reflexivity|]. apply He. split; [exact Hin|split; assumption]. }
  assert (Hdef : (forall a d h', q = a ++ 46 :: d -> ~ In 46 a -> In h' hs -> ~ wild_name (cm_name h') d) -> serves hs q (rt_default r)).
  { intros Hnow. destruct (rt_default r) as [h|] eqn:Ed.
    - destruct (proj1 (Hd h) eq_refl) as (H1 & H2). apply sv_default; assumption.
    - apply sv_none; [exact Hnoex|exact Hnow|]. intros h Hin Hdn. assert (Hx : None = Some h) by (apply Hd; split; assumption). discriminate. }
  assert (Hwf : (forall a d, q = a ++ 46 :: d -> ~ In 46 a -> ~ In (rev (46 :: d)) (map fst (rt_wild r))) ->
      forall a d h', q = a ++ 46 :: d -> ~ In 46 a -> In h' hs -> ~ wild_name (cm_name h') d).
  { intros Hno a d h' Hq Ha Hin Hwn. apply (Hno a d Hq Ha). apply in_map_iff. exists (rev (46 :: d), h'). split; [reflexivity|].
    apply Hw. split; [exact Hin|]. exists d. split; [exact Hwn|reflexivity]. }
  destruct (rt_wild r) as [|w0 ws] eqn:Ew.
  { apply Hdef. apply Hwf. intros a d _ _ []. }
  rewrite <- Ew in *. clear Ew. destruct (hm_find (wildcard_key q) (rt_wild r)) as [h|] eqn:Ewf.
  - apply hm_find_in in Ewf. apply Hw in Ewf. destruct Ewf as (Hin & d & Hwn & Hk).
    destruct (dot_split q) as [Hnd'|(a & d' & -> & Ha)].
    + rewrite (wildcard_key_none q Hnd') in Hk. cbn [rev] in Hk. destruct (rev d); discriminate.
    + rewrite (wildcard_key_dot a d' Ha) in Hk. apply rev_dot_inj in Hk. subst d'.
      apply (sv_wild hs (a ++ 46 :: d) h a d); try assumption; reflexivity.
  - apply hm_find_none in Ewf. apply Hdef. apply Hwf. intros a d -> Ha Hin. apply Ewf. rewrite (wildcard_key_dot a d Ha). exact Hin.
Qed.
Lemma serves_unique hs q x y : NoDup (map cm_name hs) -> serves hs q x -> serves hs q y -> x = y.
Proof.
  intros Hnd.
  assert (Hinj : forall h h', In h hs -> In h' hs -> cm_name h = cm_name h' -> h = h').
  { clear q x y. induction hs as [|a hs IH]; intros h h' H1 H2 E; [destruct H1|]. cbn [map] in Hnd. inversion Hnd as [|? ? Hni Hnd']; subst.
    destruct H1 as [<-|H1], H2 as [<-|H2]; [reflexivity| | |apply IH; assumption].
    - exfalso. apply Hni. rewrite E. apply in_map. exact H2.
    - exfalso. apply Hni. rewrite <- E. apply in_map. exact H1. }
  assert (Hexc : forall h, In h hs -> cm_name h = q -> exact_name q -> (exact_name q -> ~ In q (map cm_name hs)) -> False).
  { intros h H1 H2 H3 H4. apply (H4 H3). rewrite <- H2. apply in_map. exact H1. }
  intros Hx Hy. destruct Hx as [h H1 H2 H3|h a d H1 H2 H3 H4 H5|h H1 H2 H3 H4|H1 H2 H3];
    destruct Hy as [h' G1 G2 G3|h' a' d' G1 G2 G3 G4 G5|h' G1 G2 G3 G4|G1 G2 G3]; try reflexivity;
    try (exfalso; (apply (Hexc h); assumption) || (apply (Hexc h'); assumption)).
  - f_equal. apply Hinj; congruence.
  - subst q. destruct (dot_split_inj a d a' d' H3 G3 G2) as (_ & <-). f_equal. apply Hinj; try assumption. destruct H5 as (E & _). destruct G5 as (E' & _). congruence.
  - exfalso. exact (G2 a d h H2 H3 H4 H5).
  - exfalso. exact (G2 a d h H2 H3 H4 H5).
  - exfalso. exact (H2 a' d' h' G2 G3 G4 G5).
  - f_equal. apply Hinj; try assumption. unfold default_name in *. congruence.
  - exfalso. exact (G3 h H3 H4).
  - exfalso. exact (H2 a' d' h' G2 G3 G4 G5).
  - exfalso. exact (H3 h' G3 G4).
Qed.

(** ** Starting servers *)
Fixpoint inst_list cl (l : list (proto * server)) (ls : list listener) : res (list listener) :=
  match l with
  | [] => Ok ls
  | (pr, s) :: l' => let? ls1 := install_server cl pr s ls in inst_list cl l' ls1
  end.
Lemma inst_list_app cl a : forall b ls, inst_list cl (a ++ b) ls = let? ls1 := inst_list cl a ls in inst_list cl b ls1.
Proof.
  induction a as [|[pr s] a IH]; intros b ls; [reflexivity|]. cbn [app inst_list].
  destruct (install_server cl pr s ls) as [ls1| | |]; cbn [bind]; try reflexivity. apply IH.
Qed.
Lemma install_servers_list cl pr ss : forall ls, install_servers cl pr ss ls = inst_list cl (map (fun s => (pr, s)) ss) ls.
Proof.
  induction ss as [|s ss IH]; intros ls; [reflexivity|]. cbn [install_servers map inst_list].
  destruct (install_server cl pr s ls) as [ls1| | |]; cbn [bind]; try reflexivity. apply IH.
Qed.
Lemma get_server_merge p port hs ls : get_server p (merge_server port hs ls) =
  match get_server p ls with
  | Some l => if port =? p then Some (mkls (ls_port l) (ls_proto l) (ls_router l) (mksv (sv_conf (ls_server l)) (sv_hosts (ls_server l) ++ hs))) else Some l
  | None => None
  end.
Proof.
  induction ls as [|l ls IH]; [reflexivity|]. cbn [merge_server get_server].
  destruct (ls_port l =? port) eqn:E1; cbn [get_server ls_port]; destruct (ls_port l =? p) eqn:E2.
  - replace (port =? p) with true by lia. reflexivity.
  - destruct (get_server p ls); [|reflexivity]. replace (port =? p) with false by lia. reflexivity.
  - replace (port =? p) with false by lia. reflexivity.
  - exact IH.
Qed.
Lemma get_server_snoc p ls l : get_server p (ls ++ [l]) =
  match get_server p ls with Some x => Some x | None => if ls_port l =? p then Some l else None end.
Proof. induction ls as [|x ls IH]; cbn [app get_server]; [reflexivity|]. destruct (ls_port x =? p); [reflexivity|exact IH]. Qed.
(** What a listener keeps from the server that opened it. *)
Definition opened (L : listener) (pr : proto) (s : server) : Prop :=
  ls_proto L = pr /\ get_router (sv_hosts s) = Ok (ls_router L) /\ sv_conf (ls_server L) = sv_conf s.
Definition first_srv (p : Z) (l : list (proto * server)) : option (proto * server) := find (fun x => sv_port (snd x) =? p) l.
Lemma inst_list_first cl l : forall done ls ls',
  (forall p, match first_srv p done with
             | None => get_server p ls = None
             | Some (pr, s) => exists L, get_server p ls = Some L /\ opened L pr s
             end) ->
  inst_list cl l ls = Ok ls' ->
  forall p, match first_srv p (done ++ l) with
            | None => get_server p ls' = None
            | Some (pr, s) => exists L, get_server p ls' = Some L /\ opened L pr s
            end.
Proof.
  induction l as [|[pr s] l IH]; intros done ls ls' Hinv H.
  - cbn [inst_list] in H. injection H as <-. rewrite app_nil_r. exact Hinv.
  - cbn [inst_list] in H. destruct (install_server cl pr s ls) as [ls1| | |] eqn:E; cbn [bind] in H; try discriminate.
    assert (Hgoal : forall p, match first_srv p (done ++ [(pr, s)]) with
                       | None => get_server p ls1 = None
                       | Some (pr, s) => exists L, get_server p ls1 = Some L /\ opened L pr s end).
    { intros p. unfold first_srv.
      assert (Hf : forall a (b : list (proto * server)), find (fun x => sv_port (snd x) =? p) (a ++ b) =
         match find (fun x => sv_port (snd x) =? p) a with Some x => Some x | None => find (fun x => sv_port (snd x) =? p) b end).
      { induction a as [|x a IHa]; intros b; cbn [app find]; [reflexivity|]. destruct (sv_port (snd x) =? p); [reflexivity|apply IHa]. }
      rewrite Hf. clear Hf. specialize (Hinv p). unfold first_srv in Hinv. cbn [find snd].
      unfold install_server in E. destruct (get_server (sv_port s) ls) as [L0|] eqn:Eg.
      - injection E as <-. destruct (find (fun x => sv_port (snd x) =? p) done) as [[pr1 s1]|] eqn:Ef.
        + destruct Hinv as (L & HL & Ho). rewrite get_server_merge, HL. destruct (sv_port s =? p).
          * eexists. split; [reflexivity|]. exact Ho.
          * exists L. split; [reflexivity|exact Ho].
        + destruct (sv_port s =? p) eqn:Ep; [exfalso; apply Z.eqb_eq in Ep; rewrite Ep in Eg; congruence|]. rewrite get_server_merge, Hinv. reflexivity.
      - destruct (get_router (sv_hosts s)) as [hr| | |] eqn:Er; cbn [bind] in E; try discriminate.
        destruct (cl (sv_port s)) as [u| | |]; cbn [bind] in E; try discriminate. injection E as <-.
        rewrite get_server_snoc. destruct (find (fun x => sv_port (snd x) =? p) done) as [[pr1 s1]|] eqn:Ef.
        + destruct Hinv as (L & HL & Ho). rewrite HL. exists L. split; [reflexivity|exact Ho].
        + rewrite Hinv. cbn [ls_port]. destruct (sv_port s =? p); [|reflexivity]. eexists. split; [reflexivity|]. split; [reflexivity|split; [exact Er|reflexivity]]. }
    change ((pr, s) :: l) with ([(pr, s)] ++ l). rewrite app_assoc. exact (IH _ _ _ Hgoal H).
Qed.
Definition all_servers (root : cmod) : list (proto * server) :=
  map (fun s => (PHttp, s)) (http_servers root) ++
  map (fun s => (PRtmp, s)) (flat_map (fun b => servers_of root b 1) (subs_of (str "rtmp") root)) ++
  map (fun s => (PSrt, s)) (flat_map (fun b => servers_of root b 1) (subs_of (str "srt") root)).
Lemma install_list cl root ls : install cl root = Ok ls ->
  inst_list cl (all_servers root) [] = Ok ls /\ reinstall (length (subs_of (str "http") root)) (http_servers root) = Ok tt.
Proof.
  unfold install, all_servers. intros H.
  assert (E : match subs_of (str "http") root with [] => Ok [] | _ => install_servers cl PHttp (http_servers root) [] end
    = inst_list cl (map (fun s => (PHttp, s)) (http_servers root)) []).
  { destruct (subs_of (str "http") root) eqn:Es; [unfold http_servers; rewrite Es; reflexivity|]. apply install_servers_list. }
  rewrite E in H. rewrite !inst_list_app.
  destruct (inst_list cl (map _ (http_servers root)) []) as [l1| | |]; cbn [bind] in *; try discriminate.
  destruct (reinstall _ _) as [[]| | |]; cbn [bind] in *; try discriminate.
  rewrite install_servers_list in H. rewrite inst_list_app.
  destruct (inst_list cl (map _ (flat_map _ (subs_of (str "rtmp") root))) l1) as [l2| | |]; cbn [bind] in *; try discriminate.
  rewrite install_servers_list in H. split; [exact H|reflexivity].
Qed.
(** The servers with their block. *)
Definition full_hosts (root : cmod) (pr : proto) (s : cmod) : list cmod :=
  own_hosts s ++ concat (repeat (global_of root) (match pr with PHttp => length (blocks root (str "http")) | _ => 1%nat end)).
Lemma flat_map_map {A B C} (f : A -> list B) (g : B -> C) l : map g (flat_map f l) = flat_map (fun x => map g (f x)) l.
Proof. induction l as [|x l IH]; cbn [flat_map map]; [reflexivity|]. rewrite map_app, IH. reflexivity. Qed.
Lemma flat_map_cong {A B} (f g : A -> list B) l : (forall x, f x = g x) -> flat_map f l = flat_map g l.
Proof. intros H. induction l as [|x l IH]; cbn [flat_map]; [reflexivity|]. rewrite H, IH. reflexivity. Qed.
Lemma all_servers_started root : all_servers root =
  map (fun x => (fst x, mksv (snd x) (full_hosts root (fst x) (snd x)))) (started root).
Proof.
  unfold all_servers, started, http_servers, servers_of. rewrite !map_app, !flat_map_map.
  apply f_equal2; [|apply f_equal2]; apply flat_map_cong; intros x; rewrite !map_map; reflexivity.
Qed.
Lemma first_srv_started p root ps : first_on p (started root) ps ->
  first_srv p (all_servers root) = match ps with Some (pr, s) => Some (pr, mksv s (full_hosts root pr s)) | None => None end.
Proof.
  rewrite all_servers_started. unfold first_srv, first_on. destruct ps as [[pr s]|].
  - intros (a & b & -> & Hp & Ha). rewrite map_app. cbn [map fst snd]. induction a as [|x a IH]; cbn [map app find snd].
    + unfold sv_port. cbn [sv_conf]. unfold port_of in Hp. cbn [snd] in Hp. rewrite Hp, Z.eqb_refl. reflexivity.
    + destruct (sv_port _ =? p) eqn:E.
      * exfalso. apply (Ha x (or_introl eq_refl)). unfold sv_port in E. cbn [sv_conf] in E. unfold port_of. lia.
      * apply IH. intros y Hy. apply Ha. right. exact Hy.
  - intros H. induction (started root) as [|x l IH]; [reflexivity|]. cbn [map find snd].
    destruct (sv_port _ =? p) eqn:E.
    + exfalso. apply (H x (or_introl eq_refl)). unfold sv_port in E. cbn [sv_conf] in E. unfold port_of. lia.
    + apply IH. intros y Hy. apply H. right. exact Hy.
Qed.
Lemma NoDup_app_mid {A} (a b : list A) : NoDup (a ++ b ++ b) -> b = [].
Proof.
  intros H. destruct b as [|x b]; [reflexivity|]. exfalso. rewrite app_assoc in H. apply NoDup_remove_2 in H. apply H.
  apply in_or_app. left. apply in_or_app. right. left. reflexivity.
Qed.
Lemma NoDup_app_l {A} (a b : list A) : NoDup (a ++ b) -> NoDup a.
Proof.
  induction a as [|x a IH]; intros H; [constructor|]. cbn [app] in H. inversion H as [|? ? Hx Ha]; subst.
  constructor; [intros Hin; apply Hx; apply in_or_app; left; exact Hin|apply IH; exact Ha].
Qed.
Lemma full_hosts_ok root pr s : In (pr, s) (started root) -> NoDup (map cm_name (full_hosts root pr s)) ->
  full_hosts root pr s = own_hosts s ++ global_of root.
Proof.
  unfold full_hosts. intros Hin Hnd.
  assert (Hn : (match pr with PHttp => length (blocks root (str "http")) | _ => 1 end >= 1)%nat).
  { destruct pr; [|lia|lia]. destruct (blocks root (str "http")) eqn:Eb; [|cbn; lia]. exfalso. unfold started in Hin. rewrite Eb in Hin. cbn [flat_map app] in Hin.
    apply in_app_or in Hin. destruct Hin as [Hin|Hin]; apply in_flat_map in Hin; destruct Hin as (b & _ & Hin);
      apply in_map_iff in Hin; destruct Hin as (y & E & _); discriminate. }
  destruct (match pr with PHttp => length (blocks root (str "http")) | _ => 1%nat end) as [|[|n]]; [lia| |].
  - cbn [repeat concat]. rewrite app_nil_r. reflexivity.
  - assert (Hg : global_of root = []).
    { cbn [repeat concat] in Hnd. rewrite !map_app in Hnd.
      assert (Hnd2 : NoDup (map cm_name (own_hosts s) ++ map cm_name (global_of root) ++ map cm_name (global_of root))).
      { rewrite !app_assoc in Hnd. apply NoDup_app_l in Hnd. rewrite app_assoc. exact Hnd. }
      apply NoDup_app_mid in Hnd2. destruct (global_of root); [reflexivity|discriminate]. }
    rewrite Hg. f_equal. clear. generalize (S (S n)). intros k. induction k as [|k IH]; [reflexivity|]. cbn [repeat concat app]. exact IH.
Qed.
Lemma find_started p root : exists ps, first_on p (started root) ps.
Proof.
  induction (started root) as [|x l IH]; [exists None; intros y []|].
  destruct (Z.eq_dec (port_of (snd x)) p) as [E|E].
  - exists (Some x). exists [], l. split; [reflexivity|]. split; [exact E|intros y []].
  - destruct IH as ([y|] & H).
    + destruct H as (a & b & -> & Hp & Ha). exists (Some y), (x :: a), b. split; [reflexivity|]. split; [exact Hp|].
      intros z [<-|Hz]; [exact E|apply Ha; exact Hz].
    + exists None. intros y [<-|Hy]; [exact E|apply H; exact Hy].
Qed.
Lemma full_hosts_in root pr s h : In h (full_hosts root pr s) -> In h (own_hosts s ++ global_of root).
Proof.
  unfold full_hosts. rewrite !in_app_iff. intros [H|H]; [left; exact H|right].
  apply in_concat in H. destruct H as (l & Hl & Hh). apply repeat_spec in Hl. subst l. exact Hh.
Qed.
Lemma install_first cl root ls p ps : nul_free root -> install cl root = Ok ls -> first_on p (started root) ps ->
  match ps with
  | None => get_server p ls = None
  | Some (pr, s) => exists L, get_server p ls = Some L /\ ls_proto L = pr /\ rt_of (ls_router L) (own_hosts s ++ global_of root)
  end.
Proof.
  intros Hn H Hf. apply install_list in H. destruct H as (H & _).
  pose proof (inst_list_first cl (all_servers root) [] [] ls (fun p => eq_refl) H p) as Hr. cbn [app] in Hr.
  rewrite (first_srv_started p root ps Hf) in Hr. destruct ps as [[pr s]|]; [|exact Hr].
  destruct Hr as (L & HL & Hpr & Hro & _). exists L. split; [exact HL|]. split; [exact Hpr|]. cbn [sv_hosts] in Hro.
  assert (Hin : In (pr, s) (started root)) by (destruct Hf as (a & b & -> & _); apply in_or_app; right; left; reflexivity).
  apply get_router_of in Hro.
  - rewrite <- (full_hosts_ok root pr s Hin (ro_nodup _ _ Hro)). exact Hro.
  - apply Forall_forall. intros h Hh. apply (Hn pr s h Hin). apply (full_hosts_in root pr s h Hh).
Qed.
(** The listener keeps the configuration of that block. *)
Lemma install_first_conf cl root ls p pr s : install cl root = Ok ls -> first_on p (started root) (Some (pr, s)) ->
  exists L, get_server p ls = Some L /\ ls_proto L = pr /\ sv_conf (ls_server L) = s.
Proof.
  intros H Hf. apply install_list in H. destruct H as (H & _).
  pose proof (inst_list_first cl (all_servers root) [] [] ls (fun p => eq_refl) H p) as Hr. cbn [app] in Hr.
  rewrite (first_srv_started p root _ Hf) in Hr.
  destruct Hr as (L & HL & Hpr & _ & Hc). exists L. split; [exact HL|]. split; [exact Hpr|]. exact Hc.
Qed.
Lemma front_in {A} (P : A -> Prop) U V a b x y : U ++ V = a ++ x :: b -> Forall P U -> ~ P x -> In y U -> In y a.
Proof.
  revert a. induction U as [|u U IH]; intros a E HU Hx Hy; [destruct Hy|]. destruct a as [|z a]; cbn [app] in E.
  - injection E as -> _. exfalso. exact (Hx (Forall_inv HU)).
  - injection E as -> E. destruct Hy as [->|Hy]; [left; reflexivity|right; exact (IH a E (Forall_inv_tail HU) Hx Hy)].
Qed.
Lemma last_upstream_none : forall l d, (forall m, In m l -> cm_type m <> str "upstream") -> last_upstream l d = d.
Proof.
  induction l as [|x l IH]; intros d H; [reflexivity|]. cbn [last_upstream].
  unfold is_ty. rewrite eqb_list_neq by (apply H; left; reflexivity). apply IH. intros m Hm. apply H. right. exact Hm.
Qed.
Lemma last_upstream_last : forall pre u post d, cm_type u = str "upstream" ->
  (forall m, In m post -> cm_type m <> str "upstream") -> last_upstream (pre ++ u :: post) d = Some u.
Proof.
  induction pre as [|x pre IH]; intros u post d Hu H; cbn [last_upstream app].
  - unfold is_ty. rewrite Hu, eqb_list_refl. apply last_upstream_none. exact H.
  - apply IH; assumption.
Qed.
