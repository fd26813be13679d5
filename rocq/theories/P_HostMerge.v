(** C252: merging the tables of hosts of two servers. *)
From Verif Require Import Base M_Text M_Url M_Conf M_Host S_Host L_Host P_Host.

Lemma hm_merge_spec b : forall a, NoDup (map fst b) ->
  ((forall k, In k (map fst a) -> ~ In k (map fst b)) -> hm_merge a b = (a ++ b, Ok tt)) /\
  ((exists k, In k (map fst a) /\ In k (map fst b)) -> exists a', hm_merge a b = (a', Err ERROR_CONFIG_PARSE_INVALID)).
Proof.
  induction b as [|h b IH]; intros a Hb; cbn [hm_merge].
  - split; [intros _; rewrite app_nil_r; reflexivity|intros (k & _ & [])].
  - cbn [map] in Hb. inversion Hb as [|? ? Hh Hb']; subst. destruct (hm_count (fst h) a) eqn:E.
    + split; [|intros _; eexists; reflexivity]. intros D. exfalso.
      assert (In (fst h) (map fst a)) as K.
      { destruct (in_dec (list_eq_dec Z.eq_dec) (fst h) (map fst a)) as [K|K]; [exact K|]. apply hm_count_false in K. congruence. }
      apply (D _ K). left. reflexivity.
    + apply hm_count_false in E. destruct (IH (a ++ [h]) Hb') as [I1 I2]. split.
      * intros D. rewrite I1; [rewrite <- app_assoc; reflexivity|]. intros k K L. rewrite map_app in K. apply in_app_iff in K as [K|[K|[]]].
        { apply (D k K). right. exact L. }
        { subst k. exact (Hh L). }
      * intros (k & K & [L|L]); [subst k; contradiction|]. apply I2. exists k. split; [|exact L]. rewrite map_app. apply in_app_iff. left. exact K.
Qed.

Lemma common_name (a b : list (list Z)) : NoDup a -> NoDup b -> ~ NoDup (a ++ b) -> exists k, In k a /\ In k b.
Proof.
  induction a as [|x a IH]; intros Ha Hb H; [contradiction|]. inversion Ha; subst.
  destruct (in_dec (list_eq_dec Z.eq_dec) x b) as [K|K]; [exists x; split; [left; reflexivity|exact K]|].
  destruct IH as (k & K1 & K2); [assumption|exact Hb| |exists k; split; [right; exact K1|exact K2]].
  intros N. apply H. cbn [app]. constructor; [|exact N]. intros I. apply in_app_iff in I as [I|I]; contradiction.
Qed.
Lemma nodup_apart (a b : list (list Z)) k : NoDup (a ++ b) -> In k a -> In k b -> False.
Proof.
  induction a as [|x a IH]; intros H Ka Kb; [destruct Ka|]. cbn [app] in H. inversion H as [|? ? N H']; subst. destruct Ka as [->|Ka].
  - apply N. apply in_app_iff. right. exact Kb.
  - exact (IH H' Ka Kb).
Qed.
Lemma nodup_join (a b : list (list Z)) : NoDup a -> NoDup b -> (forall k, In k a -> ~ In k b) -> NoDup (a ++ b).
Proof.
  induction 1 as [|x a Hx Ha IH]; intros Hb D; cbn [app]; [exact Hb|]. constructor.
  - intros I. apply in_app_iff in I as [I|I]; [contradiction|]. apply (D x); [left; reflexivity|exact I].
  - apply IH; [exact Hb|]. intros k K. apply D. right. exact K.
Qed.
Lemma nodup_filter_map (f : cmod -> bool) l : NoDup (map cm_name l) -> NoDup (map cm_name (filter f l)).
Proof.
  induction l as [|x l IH]; cbn [map filter]; intros H; [constructor|]. inversion H as [|? ? N H']; subst.
  destruct (f x); [|exact (IH H')]. cbn [map]. constructor; [|exact (IH H')]. intros I. apply N. apply in_map_iff in I as (y & E & I).
  apply in_map_iff. exists y. split; [exact E|]. apply filter_In in I. apply I.
Qed.

(** C252: two tables, made of the hosts [hs] and [gs], can be merged exactly when no name is in both; the merged
    table serves every name as one table of all these hosts would, but for the default host of the second
    table, which is forgotten. *)
Theorem host_merge_joins : forall hs gs r o, Forall (fun h => no_nul (cm_name h)) (hs ++ gs) ->
  get_router hs = Ok r -> get_router gs = Ok o ->
  (NoDup (map cm_name (hs ++ gs)) ->
   exists r', rt_merge r o = (r', Ok tt) /\
     forall q x, find_host r' q = x <-> serves (hs ++ filter (fun g => negb (eqb_list (cm_name g) (str "*"))) gs) q x) /\
  (~ NoDup (map cm_name (hs ++ gs)) -> exists r', rt_merge r o = (r', Err ERROR_CONFIG_PARSE_INVALID)).
Proof.
  intros hs gs r o Hn Er Eo. apply Forall_app in Hn as [Hn1 Hn2].
  pose proof (get_router_of hs r Hn1 Er) as R. pose proof (get_router_of gs o Hn2 Eo) as O.
  destruct (hm_merge_spec (rt_exact o) (rt_exact r) (ro_nd_exact _ _ O)) as [X1 X2].
  destruct (hm_merge_spec (rt_wild o) (rt_wild r) (ro_nd_wild _ _ O)) as [W1 W2].
  unfold rt_merge. rewrite map_app. split.
  - intros N.
    assert (DX : forall k, In k (map fst (rt_exact r)) -> ~ In k (map fst (rt_exact o))).
    { intros k K L. apply in_map_iff in K as ([k1 h] & <- & K). apply in_map_iff in L as ([k2 g] & E & L). cbn [fst] in *. subst k2.
      apply (ro_exact _ _ R) in K as (K1 & K2 & _). apply (ro_exact _ _ O) in L as (L1 & L2 & _).
      apply (nodup_apart _ _ k1 N); apply in_map_iff; [exists h|exists g]; auto. }
    assert (DW : forall k, In k (map fst (rt_wild r)) -> ~ In k (map fst (rt_wild o))).
    { intros k K L. apply in_map_iff in K as ([k1 h] & <- & K). apply in_map_iff in L as ([k2 g] & E & L). cbn [fst] in *. subst k2.
      apply (ro_wild _ _ R) in K as (K1 & d & K2 & ->). apply (ro_wild _ _ O) in L as (L1 & d' & L2 & E). apply rev_dot_inj in E. subst d'.
      apply (nodup_apart _ _ (cm_name h) N); apply in_map_iff; [exists h; auto|exists g]. split; [|exact L1].
      destruct K2 as [-> _]. destruct L2 as [-> _]. reflexivity. }
    rewrite (X1 DX), (W1 DW).
    assert (ND : ~ (exists a b, rt_default r = Some a /\ rt_default o = Some b)).
    { intros (a & b & Ea & Eb). apply (ro_default _ _ R) in Ea as [A1 A2]. apply (ro_default _ _ O) in Eb as [B1 B2].
      apply (nodup_apart _ _ (cm_name a) N); apply in_map_iff; [exists a; auto|exists b]. split; [|exact B1].
      unfold default_name in *. congruence. }
    exists (mkrt (rt_exact r ++ rt_exact o) (rt_wild r ++ rt_wild o) (rt_default r)). split.
    { destruct (rt_default r) as [a|]; [|reflexivity]. destruct (rt_default o) as [b|]; [|reflexivity]. exfalso. apply ND. exists a, b. auto. }
    set (f := fun g => negb (eqb_list (cm_name g) (str "*"))).
    assert (F : forall g, In g (filter f gs) <-> In g gs /\ ~ default_name (cm_name g)).
    { intros g. rewrite filter_In. unfold f, default_name. destruct (eqb_list (cm_name g) (str "*")) eqn:E; cbn [negb].
      - apply eqb_list_spec in E. split; [intros [_ K]; discriminate|intros [_ K]; contradiction].
      - split; [intros [K _]|intros [K _]; auto]. split; [exact K|]. intros E'. apply eqb_list_spec in E'. change [42] with (str "*") in E'. congruence. }
    assert (J : rt_of (mkrt (rt_exact r ++ rt_exact o) (rt_wild r ++ rt_wild o) (rt_default r)) (hs ++ filter f gs)).
    { constructor; cbn [rt_exact rt_wild rt_default].
      - intros k h. rewrite !in_app_iff, (ro_exact _ _ R), (ro_exact _ _ O), F. split.
        + intros [(A & B & C)|(A & B & C)]; [auto|]. split; [|auto]. right. split; [exact A|]. intros D. subst k. exact (default_not_exact _ D C).
        + intros ([A|[A _]] & B & C); [left|right]; auto.
      - intros k h. rewrite !in_app_iff, (ro_wild _ _ R), (ro_wild _ _ O), F. split.
        + intros [(A & d & B & C)|(A & d & B & C)]; [split; [auto|exists d; auto]|]. split; [|exists d; auto]. right. split; [exact A|].
          exact (wild_not_default _ _ B).
        + intros ([A|[A _]] & d & B & C); [left|right]; (split; [exact A|exists d; auto]).
      - intros h. rewrite in_app_iff, (ro_default _ _ R), F. tauto.
      - rewrite map_app. apply nodup_join; [exact (ro_nd_exact _ _ R)|exact (ro_nd_exact _ _ O)|exact DX].
      - rewrite map_app. apply nodup_join; [exact (ro_nd_wild _ _ R)|exact (ro_nd_wild _ _ O)|exact DW].
      - apply Forall_app. split; [exact (ro_valid _ _ R)|]. apply Forall_forall. intros g G. apply F in G as [G _].
        pose proof (ro_valid _ _ O) as V. rewrite Forall_forall in V. exact (V g G).
      - rewrite map_app. apply nodup_join; [exact (ro_nodup _ _ R)|apply nodup_filter_map; exact (ro_nodup _ _ O)|].
        intros k K L. apply (nodup_apart _ _ k N); [exact K|]. apply in_map_iff in L as (g & <- & G). apply F in G as [G _].
        apply in_map. exact G. }
    intros q x. pose proof (find_host_serves _ _ q J) as S. split.
    + intros <-. exact S.
    + intros Hx. exact (serves_unique _ q _ _ (ro_nodup _ _ J) S Hx).
  - intros N. destruct (common_name _ _ (ro_nodup _ _ R) (ro_nodup _ _ O) N) as (k & K & L).
    apply in_map_iff in K as (h & <- & K). apply in_map_iff in L as (g & E & L).
    assert (DD : default_name (cm_name h) \/ ~ default_name (cm_name h)).
    { unfold default_name. destruct (list_eq_dec Z.eq_dec (cm_name h) (str "*")); auto. }
    destruct DD as [D|D].
    { assert (rt_default r = Some h) as -> by (apply (ro_default _ _ R); auto).
      assert (rt_default o = Some g) as -> by (apply (ro_default _ _ O); split; [exact L|]; rewrite E; exact D).
      eexists. reflexivity. }
    assert (G : exists r', match hm_merge (rt_exact r) (rt_exact o) with
      | (e, Ok _) => let '(w, x) := hm_merge (rt_wild r) (rt_wild o) in (mkrt e w (rt_default r), x)
      | (e, x) => (mkrt e (rt_wild r) (rt_default r), x) end = (r', Err ERROR_CONFIG_PARSE_INVALID)).
    { pose proof (ro_valid _ _ R) as V. rewrite Forall_forall in V. destruct (V h K) as [V1|[(d & V1)|V1]]; [| |contradiction].
      - destruct X2 as (a' & ->); [|eexists; reflexivity]. exists (cm_name h). split; apply in_map_iff.
        + exists (cm_name h, h). split; [reflexivity|]. apply (ro_exact _ _ R). auto.
        + exists (cm_name h, g). split; [reflexivity|]. apply (ro_exact _ _ O). auto.
      - destruct W2 as (w' & Ew).
        { exists (List.rev (46 :: d)). split; apply in_map_iff.
          - exists (List.rev (46 :: d), h). split; [reflexivity|]. apply (ro_wild _ _ R). split; [exact K|]. exists d. auto.
          - exists (List.rev (46 :: d), g). split; [reflexivity|]. apply (ro_wild _ _ O). split; [exact L|]. exists d. rewrite E. auto. }
        destruct (in_dec (list_eq_dec Z.eq_dec) (cm_name h) []) as [[]|_].
        assert (DX : (exists k, In k (map fst (rt_exact r)) /\ In k (map fst (rt_exact o))) \/
                     (forall k, In k (map fst (rt_exact r)) -> ~ In k (map fst (rt_exact o)))).
        { destruct (Exists_dec (fun k => In k (map fst (rt_exact o))) (map fst (rt_exact r))) as [Z|Z].
          - intros k. apply in_dec, list_eq_dec, Z.eq_dec.
          - left. apply Exists_exists in Z. exact Z.
          - right. intros k I1 I2. apply Z. apply Exists_exists. exists k. auto. }
        destruct DX as [DX|DX].
        + destruct (X2 DX) as (a' & ->). eexists. reflexivity.
        + rewrite (X1 DX), Ew. eexists. reflexivity. }
    destruct (rt_default r) as [?|]; [|exact G]. destruct (rt_default o) as [?|]; [eexists; reflexivity|exact G].
Qed.
Print Assumptions host_merge_joins.

(** C252: a merge that fails is not undone: when the tables share only names with a wildcard, the exact hosts
    of the second table are served by the first from then on. *)
Theorem host_merge_not_undone : forall hs gs r o r' h, Forall (fun h => no_nul (cm_name h)) (hs ++ gs) ->
  get_router hs = Ok r -> get_router gs = Ok o -> rt_merge r o = (r', Err ERROR_CONFIG_PARSE_INVALID) ->
  (forall a b, In a hs -> In b gs -> cm_name a = cm_name b -> exists d, wild_name (cm_name a) d) ->
  In h gs -> exact_name (cm_name h) -> find_host r (cm_name h) <> Some h /\ find_host r' (cm_name h) = Some h.
Proof.
  intros hs gs r o r' h Hn Er Eo Em Hw Hg Hx. apply Forall_app in Hn as [Hn1 Hn2].
  pose proof (get_router_of hs r Hn1 Er) as R. pose proof (get_router_of gs o Hn2 Eo) as O.
  assert (HI : ~ In h hs).
  { intros I. destruct (Hw h h I Hg eq_refl) as (d & W). exact (wild_not_exact _ _ W Hx). }
  split.
  - intros E. pose proof (find_host_serves _ _ (cm_name h) R) as S. rewrite E in S. inversion S; subst; contradiction.
  - destruct (hm_merge_spec (rt_exact o) (rt_exact r) (ro_nd_exact _ _ O)) as [X1 _].
    assert (DX : forall k, In k (map fst (rt_exact r)) -> ~ In k (map fst (rt_exact o))).
    { intros k K L. apply in_map_iff in K as ([k1 a] & <- & K). apply in_map_iff in L as ([k2 b] & E & L). cbn [fst] in *. subst k2.
      apply (ro_exact _ _ R) in K as (K1 & K2 & K3). apply (ro_exact _ _ O) in L as (L1 & L2 & _). subst k1.
      destruct (Hw a b K1 L1 (eq_sym L2)) as (d & W). exact (wild_not_exact _ _ W K3). }
    assert (RX : rt_exact r' = rt_exact r ++ rt_exact o).
    { unfold rt_merge in Em. rewrite (X1 DX) in Em. destruct (hm_merge (rt_wild r) (rt_wild o)) as [w x].
      destruct (rt_default r) as [a|] eqn:Ea; [destruct (rt_default o) as [b|] eqn:Eb|]; try (injection Em as <- _; reflexivity).
      exfalso. apply (ro_default _ _ R) in Ea as [A1 A2]. apply (ro_default _ _ O) in Eb as [B1 B2]. unfold default_name in *.
      destruct (Hw a b A1 B1 ltac:(congruence)) as (d & W & _). rewrite A2 in W. discriminate W. }
    assert (IN : In (cm_name h, h) (rt_exact o)) by (apply (ro_exact _ _ O); auto).
    unfold find_host. rewrite RX.
    assert (F : forall l m k v, (forall k, In k (map fst l) -> ~ In k (map fst m)) -> NoDup (map fst m) -> In (k, v) m -> hm_find k (l ++ m) = Some v).
    { clear. induction l as [|x l IH]; intros m k v D N I; cbn [app hm_find].
      - induction m as [|y m IHm]; [destruct I|]. cbn [map] in N. inversion N as [|? ? Ny Nm]; subst. cbn [hm_find]. destruct I as [->|I].
        + cbn [fst snd]. rewrite eqb_list_refl. reflexivity.
        + rewrite eqb_list_neq; [apply IHm; [intros ? []|exact Nm|exact I]|]. intros <-. apply Ny. apply in_map_iff. exists (fst y, v). auto.
      - rewrite eqb_list_neq; [apply IH; [intros k' K'; apply D; right; exact K'|exact N|exact I]|].
        intros <-. apply (D (fst x)); [left; reflexivity|]. apply in_map_iff. exists (fst x, v). auto. }
    rewrite (F _ _ _ _ DX (ro_nd_exact _ _ O) IN). reflexivity.
Qed.
Print Assumptions host_merge_not_undone.

(** Non-vacuity of C252: an exact and a wildcard host, and an exact host with a default; a name that is in both. *)
Example host_merge_joins_case :
  exists r o o2, get_router [host_ "a"; host_ "*.b"] = Ok r /\ get_router [host_ "c"; host_ "*"] = Ok o /\ get_router [host_ "*.b"; host_ "e"] = Ok o2 /\
    find_host (fst (rt_merge r o)) (str "c") = Some (host_ "c") /\ find_host (fst (rt_merge r o)) (str "x.b") = Some (host_ "*.b") /\
    find_host (fst (rt_merge r o)) (str "d") = None /\ snd (rt_merge r o2) = Err ERROR_CONFIG_PARSE_INVALID /\
    find_host r (str "e") = None /\ find_host (fst (rt_merge r o2)) (str "e") = Some (host_ "e").
Proof. do 3 eexists. repeat split; vm_compute; reflexivity. Qed.
