(** Lemmas about URLs. *)
From Verif Require Import Base M_Text M_Url S_Url.

(** ** Searching *)
Lemma find_char_first c a b : without c a -> find_char c (a ++ c :: b) = Some (zlen a).
Proof.
  intros H. induction a as [|x a IH]; cbn [app find_char].
  - rewrite Z.eqb_refl. reflexivity.
  - destruct (x =? c) eqn:E; [exfalso; apply H; left; lia|].
    rewrite IH by (intros Hin; apply H; right; exact Hin). rewrite zlen_cons. f_equal. lia.
Qed.
Lemma find_char_none c l : without c l -> find_char c l = None.
Proof.
  intros H. induction l as [|x l IH]; [reflexivity|]. cbn [find_char].
  destruct (x =? c) eqn:E; [exfalso; apply H; left; lia|].
  rewrite IH by (intros Hin; apply H; right; exact Hin). reflexivity.
Qed.
Lemma zlen_rev {A} (l : list A) : zlen (rev l) = zlen l.
Proof. unfold zlen. rewrite rev_length. reflexivity. Qed.
Lemma rfind_char_last c a b : without c b -> rfind_char c (a ++ c :: b) = Some (zlen a).
Proof.
  intros H. unfold rfind_char. rewrite rev_app_distr. cbn [rev]. rewrite <- app_assoc. cbn [app].
  rewrite find_char_first by (intros Hin; apply H; apply in_rev; exact Hin).
  rewrite zlen_rev, zlen_app, zlen_cons. f_equal. lia.
Qed.
Lemma rfind_char_none c l : without c l -> rfind_char c l = None.
Proof. intros H. unfold rfind_char. rewrite find_char_none; [reflexivity|]. intros Hin. apply H. apply in_rev. exact Hin. Qed.

(** ** The library stand-in meets the assumption *)
Lemma hp_run_app l1 : forall s a l2, hp_run s a (l1 ++ l2) =
  match hp_run s a l1 with Some (s', a') => hp_run s' a' l2 | None => None end.
Proof.
  induction l1 as [|c l1 IH]; intros s a l2; [reflexivity|]. cbn [app hp_run].
  destruct (hp_step s c) as [s'|]; [apply IH|reflexivity].
Qed.
Lemma is_alpha_ok c : alpha c -> is_alpha c = true.
Proof. unfold alpha, is_alpha. lia. Qed.
Lemma is_hostc_ok c : host_c c -> is_hostc c = true.
Proof. unfold host_c, alpha, digit_c, is_hostc, is_alpha, is_num. lia. Qed.
Lemma is_urlc_ok c : path_c c -> is_urlc c = true.
Proof. unfold path_c, is_urlc. lia. Qed.

Lemma run_schema l : forall a s, Forall alpha l -> s = SSchema \/ (s = SStart /\ l <> []) ->
  hp_run s a l = Some (SSchema, mkua (ua_s a ++ l) (ua_h a) (ua_p a) (ua_q a)).
Proof.
  induction l as [|c l IH]; intros a s Hf Hs.
  - destruct Hs as [-> |[_ H]]; [|congruence]. cbn. rewrite app_nil_r. destruct a; reflexivity.
  - inversion_clear Hf as [|? ? Hc Hl]. pose proof (is_alpha_ok c Hc) as Ha.
    assert (hp_step s c = Some SSchema) as Hst.
    { destruct Hs as [-> |[-> _]]; cbn [hp_step]; rewrite Ha; [reflexivity|].
      assert ((c =? 47) || (c =? 42) = false) as -> by (unfold alpha in Hc; lia). reflexivity. }
    cbn [hp_run]. rewrite Hst, IH; [|exact Hl|left; reflexivity]. cbn. rewrite <- app_assoc. reflexivity.
Qed.
Lemma run_server l : forall a s, Forall (fun c => host_c c \/ c = 58) l -> s = SServer \/ (s = SServer0 /\ l <> []) ->
  hp_run s a l = Some (SServer, mkua (ua_s a) (ua_h a ++ l) (ua_p a) (ua_q a)).
Proof.
  induction l as [|c l IH]; intros a s Hf Hs.
  - destruct Hs as [-> |[_ H]]; [|congruence]. cbn. rewrite app_nil_r. destruct a; reflexivity.
  - inversion_clear Hf as [|? ? Hc Hl].
    assert (hp_step s c = Some SServer) as Hst.
    { assert ((c =? 47) = false) as E1 by (unfold host_c, alpha, digit_c in Hc; lia).
      assert ((c =? 63) = false) as E2 by (unfold host_c, alpha, digit_c in Hc; lia).
      assert (is_hostc c || (c =? 58) = true) as E3.
      { destruct Hc as [Hc| ->]; [rewrite (is_hostc_ok c Hc)|]; reflexivity. }
      destruct Hs as [-> |[-> _]]; cbn [hp_step]; rewrite E1, E2, E3; reflexivity. }
    cbn [hp_run]. rewrite Hst, IH; [|exact Hl|left; reflexivity]. cbn. rewrite <- app_assoc. reflexivity.
Qed.
Lemma run_path l : forall a, Forall path_c l ->
  hp_run SPath a l = Some (SPath, mkua (ua_s a) (ua_h a) (ua_p a ++ l) (ua_q a)).
Proof.
  induction l as [|c l IH]; intros a Hf.
  - cbn. rewrite app_nil_r. destruct a; reflexivity.
  - inversion_clear Hf as [|? ? Hc Hl]. cbn [hp_run hp_step]. rewrite (is_urlc_ok c Hc), IH by exact Hl.
    cbn. rewrite <- app_assoc. reflexivity.
Qed.
Lemma run_query l : forall a s, Forall path_c l -> s = SQuery \/ (s = SQuery0 /\ l <> []) ->
  hp_run s a l = Some (SQuery, mkua (ua_s a) (ua_h a) (ua_p a) (ua_q a ++ l)).
Proof.
  induction l as [|c l IH]; intros a s Hf Hs.
  - destruct Hs as [-> |[_ H]]; [|congruence]. cbn. rewrite app_nil_r. destruct a; reflexivity.
  - inversion_clear Hf as [|? ? Hc Hl].
    assert (hp_step s c = Some SQuery) as Hst by (destruct Hs as [-> |[-> _]]; cbn [hp_step]; rewrite (is_urlc_ok c Hc); reflexivity).
    cbn [hp_run]. rewrite Hst, IH; [|exact Hl|left; reflexivity]. cbn. rewrite <- app_assoc. reflexivity.
Qed.

Lemma forallb_Forall {A} (f : A -> bool) (P : A -> Prop) l : (forall x, P x -> f x = true) -> Forall P l -> forallb f l = true.
Proof. intros H Hf. apply forallb_forall. rewrite Forall_forall in Hf. auto. Qed.
Lemma numrun_dec l : forall acc, Forall digit_c l -> numrun decval 10 l acc = dec_value l acc.
Proof.
  induction l as [|c l IH]; intros acc Hf; [reflexivity|]. inversion_clear Hf as [|? ? Hc Hl]. cbn [numrun dec_value].
  unfold decval. unfold digit_c in Hc. destruct ((48 <=? c) && (c <=? 57)) eqn:E; [|lia].
  rewrite IH by exact Hl. f_equal. lia.
Qed.
Lemma host_no_colon l : Forall host_c l -> without 58 l.
Proof.
  intros H Hin. rewrite Forall_forall in H. specialize (H 58 Hin). unfold host_c, alpha, digit_c in H. lia.
Qed.
Lemma nonnil_some l : l <> [] -> nonnil l = Some l.
Proof. destruct l; [congruence|reflexivity]. Qed.
Lemma zlen_pos_ne {A} (l : list A) : l <> [] -> (zlen l =? 0) = false.
Proof. destruct l; [congruence|]. intros _. rewrite zlen_cons. pose proof (zlen_nonneg l). lia. Qed.

Lemma hp_host_ok host port : host <> [] -> Forall host_c host ->
  match port with None => True | Some p => p <> [] /\ Forall digit_c p /\ dec_value p 0 <= 65535 end ->
  hp_host (host ++ match port with None => [] | Some p => 58 :: p end) =
    Some (host, option_map (fun p => dec_value p 0) port).
Proof.
  intros Hn Hh Hp. unfold hp_host. pose proof (host_no_colon host Hh) as Hc.
  assert (Hfh : forallb is_hostc host = true) by (eapply forallb_Forall; [exact is_hostc_ok|exact Hh]).
  destruct port as [p|].
  - destruct Hp as (Hpn & Hpd & Hpv). rewrite find_char_first by exact Hc.
    rewrite take_app_exact by reflexivity.
    replace (drop (zlen host + 1) (host ++ 58 :: p)) with p.
    2:{ change (58 :: p) with ([58] ++ p). rewrite app_assoc. rewrite drop_app_exact; [reflexivity|]. rewrite zlen_app. reflexivity. }
    assert (forallb is_num p = true) as Hfp.
    { eapply forallb_Forall; [|exact Hpd]. unfold digit_c, is_num. intros; lia. }
    rewrite Hfh, Hfp, !zlen_pos_ne, numrun_dec by assumption.
    destruct (dec_value p 0 <=? 65535) eqn:E; [reflexivity|lia].
  - rewrite app_nil_r, find_char_none by exact Hc. rewrite Hfh, zlen_pos_ne by exact Hn. reflexivity.
Qed.

Lemma hp_url_parts schema host port path query : url_wf schema host port path query ->
  hp_url (url_text schema host port path query) =
    Some (mkup (Some schema) (Some host) (option_map (fun p => dec_value p 0) port) path query).
Proof.
  revert schema host port path query. intros schema host port path query [[Hs1 Hs2] [Hh1 Hh2] Hp Hpa Hq].
  unfold hp_url, url_text.
  assert ((zlen (schema ++ str "://" ++ host ++ match port with Some p => 58 :: p | None => [] end ++
    match path with Some p => p | None => [] end ++ match query with Some q => 63 :: q | None => [] end) =? 0) = false) as ->.
  { apply zlen_pos_ne. destruct schema; [congruence|discriminate]. }
  rewrite hp_run_app, run_schema; [|exact Hs2|right; auto]. cbn [ua_s ua_h ua_p ua_q app].
  change (str "://") with [58; 47; 47].
  assert (Hcolon : forall a l, hp_run SSchema a ([58; 47; 47] ++ l) = hp_run SServer0 a l) by reflexivity.
  rewrite Hcolon. set (auth := host ++ match port with Some p => 58 :: p | None => [] end).
  rewrite app_assoc. fold auth.
  assert (Hauth : Forall (fun c => host_c c \/ c = 58) auth /\ auth <> []).
  { unfold auth. split.
    - apply Forall_app. split; [eapply Forall_impl; [|exact Hh2]; auto|].
      destruct port as [p|]; [|constructor]. constructor; [right; reflexivity|].
      destruct Hp as (_ & Hd & _). eapply Forall_impl; [|exact Hd]. cbn. unfold host_c. auto.
    - destruct host; [congruence|discriminate]. }
  destruct Hauth as [Ha1 Ha2].
  rewrite hp_run_app, run_server; [|exact Ha1|right; auto]. cbn [ua_s ua_h ua_p ua_q app].
  assert (Hhost : hp_host auth = Some (host, option_map (fun p => dec_value p 0) port)) by (apply hp_host_ok; assumption).
  destruct path as [pa|].
  - destruct Hpa as (p' & -> & Hp').
    assert (Hsl : forall a l, hp_run SServer a ((47 :: p') ++ l) = hp_run SPath (hp_add a SPath 47) (p' ++ l)) by reflexivity.
    rewrite Hsl, hp_run_app, run_path by exact Hp'. cbn [hp_add ua_s ua_h ua_p ua_q app].
    destruct query as [q|].
    + destruct Hq as [Hq1 Hq2].
      change (hp_run SPath ?a (63 :: q)) with (hp_run SQuery0 a q).
      rewrite run_query; [|exact Hq2|right; auto]. cbn [ua_s ua_h ua_p ua_q app].
      rewrite (nonnil_some schema), (nonnil_some auth), (nonnil_some q) by assumption. rewrite Hhost. reflexivity.
    + cbn [hp_run ua_s ua_h ua_p ua_q]. rewrite (nonnil_some schema), (nonnil_some auth) by assumption.
      rewrite Hhost. reflexivity.
  - subst query. cbn [app hp_run ua_s ua_h ua_p ua_q]. rewrite (nonnil_some schema), (nonnil_some auth) by assumption.
    rewrite Hhost. reflexivity.
Qed.

Lemma hp_url_ok : url_lib_ok hp_url.
Proof.
  constructor.
  - exact hp_url_parts.
  - intros schema Hn Ha. unfold hp_url. rewrite zlen_pos_ne by (destruct schema; [congruence|discriminate]).
    rewrite hp_run_app, run_schema; [|exact Ha|right; auto]. cbn [ua_s ua_h ua_p ua_q app].
    change (hp_run SSchema ?a (str "://")) with (Some (SServer0, a)). cbn [ua_s ua_h ua_p ua_q].
    rewrite (nonnil_some schema) by exact Hn. reflexivity.
  - intros schema host rest Hn Ha Hh1 Hh2 Hr. unfold hp_url. rewrite zlen_pos_ne by (destruct schema; [congruence|discriminate]).
    rewrite hp_run_app, run_schema; [|exact Ha|right; auto]. cbn [ua_s ua_h ua_p ua_q app].
    change (str "://") with [58; 47; 47].
    change (hp_run SSchema ?a ([58; 47; 47] ++ ?l)) with (hp_run SServer0 a l).
    change (str ":/") with ([58] ++ [47]). rewrite <- app_assoc, (app_assoc host [58]).
    rewrite hp_run_app, run_server.
    2:{ apply Forall_app. split; [eapply Forall_impl; [|exact Hh2]; auto|]. constructor; [right; reflexivity|constructor]. }
    2:{ right. split; [reflexivity|]. destruct host; [congruence|discriminate]. }
    cbn [ua_s ua_h ua_p ua_q app].
    change (hp_run SServer ?a (47 :: rest)) with (hp_run SPath (hp_add a SPath 47) rest).
    rewrite run_path by exact Hr. cbn [hp_add ua_s ua_h ua_p ua_q app].
    rewrite (nonnil_some schema), (nonnil_some (host ++ [58])) by (assumption || (destruct host; discriminate)).
    unfold hp_host. rewrite find_char_first by (apply host_no_colon; exact Hh2).
    rewrite take_app_exact by reflexivity.
    rewrite drop_all by (rewrite zlen_app; cbn; lia). change (zlen (@nil Z) =? 0) with true.
    rewrite !andb_false_r, ?andb_false_l. cbn. rewrite ?andb_false_r. reflexivity.
Qed.

(** ** Query loop *)
Lemma cut_eq_spec l : match cut_eq l with
  | Some (a, b) => l = a ++ 61 :: b /\ without 61 a
  | None => without 61 l
  end.
Proof.
  induction l as [|c l IH]; cbn [cut_eq]; [intros []|].
  destruct (c =? 61) eqn:E.
  - assert (c = 61) as -> by lia. split; [reflexivity|intros []].
  - destruct (cut_eq l) as [[a b]|].
    + destruct IH as [-> H]. split; [reflexivity|]. intros [Hin|Hin]; [lia|exact (H Hin)].
    + intros [Hin|Hin]; [lia|exact (IH Hin)].
Qed.

Lemma query_loop_ok : forall pieces fuel pending, Forall (without 38) pieces ->
  without 61 pending -> (length pieces < fuel)%nat ->
  query_loop fuel (pending ++ join 38 pieces) = Ok (params_of pending pieces).
Proof.
  induction pieces as [|p ps IH]; intros fuel pending Hf Hpend Hfu; (destruct fuel as [|fuel]; [cbn in Hfu; lia|]).
  - cbn [join params_of query_loop]. rewrite app_nil_r, find_char_none by exact Hpend. reflexivity.
  - inversion_clear Hf as [|? ? Hp Hps]. pose proof (cut_eq_spec p) as Hc. cbn [params_of].
    destruct (cut_eq p) as [[k v]|].
    + destruct Hc as [-> Hk].
      assert (Hv : without 38 v) by (intros Hin; apply Hp, in_or_app; right; right; exact Hin).
      assert (Hpk : without 61 (pending ++ k)) by (intros Hin; apply in_app_or in Hin as [Hin|Hin]; auto).
      destruct ps as [|p2 ps].
      * cbn [join params_of query_loop]. rewrite app_assoc, find_char_first by exact Hpk.
        rewrite take_app_exact by reflexivity.
        replace (drop (zlen (pending ++ k) + 1) ((pending ++ k) ++ 61 :: v)) with v.
        2:{ change (61 :: v) with ([61] ++ v). rewrite (app_assoc (pending ++ k)). rewrite drop_app_exact; [reflexivity|]. rewrite (zlen_app (pending ++ k)). reflexivity. }
        rewrite find_char_none by exact Hv. reflexivity.
      * change (join 38 ((k ++ 61 :: v) :: p2 :: ps)) with ((k ++ 61 :: v) ++ 38 :: join 38 (p2 :: ps)).
        set (tl := join 38 (p2 :: ps)). cbn [query_loop].
        replace (pending ++ (k ++ 61 :: v) ++ 38 :: tl) with ((pending ++ k) ++ 61 :: v ++ 38 :: tl)
          by (rewrite <- !app_assoc; reflexivity).
        rewrite find_char_first by exact Hpk. rewrite take_app_exact by reflexivity.
        replace (drop (zlen (pending ++ k) + 1) ((pending ++ k) ++ 61 :: v ++ 38 :: tl)) with (v ++ 38 :: tl).
        2:{ change (61 :: v ++ 38 :: tl) with ([61] ++ (v ++ 38 :: tl)). rewrite (app_assoc (pending ++ k)). rewrite drop_app_exact; [reflexivity|]. rewrite (zlen_app (pending ++ k)). reflexivity. }
        rewrite find_char_first by exact Hv. rewrite take_app_exact by reflexivity.
        replace (drop (zlen v + 1) (v ++ 38 :: tl)) with tl.
        2:{ change (38 :: tl) with ([38] ++ tl). rewrite (app_assoc v). rewrite drop_app_exact; [reflexivity|]. rewrite (zlen_app v). reflexivity. }
        change tl with ([] ++ tl). unfold tl. rewrite IH; [reflexivity|exact Hps|intros []|cbn in Hfu |- *; lia].
    + destruct ps as [|p2 ps].
      * cbn [join query_loop params_of]. rewrite find_char_none; [reflexivity|].
        intros Hin. apply in_app_or in Hin as [Hin|Hin]; auto.
      * change (join 38 (p :: p2 :: ps)) with (p ++ 38 :: join 38 (p2 :: ps)).
        replace (pending ++ p ++ 38 :: join 38 (p2 :: ps)) with ((pending ++ p ++ [38]) ++ join 38 (p2 :: ps))
          by (rewrite <- !app_assoc; reflexivity).
        apply IH; [exact Hps| |cbn in Hfu |- *; lia].
        intros Hin. apply in_app_or in Hin as [Hin|Hin]; [auto|]. apply in_app_or in Hin as [Hin|[Hin|[]]]; [auto|lia].
Qed.

Lemma join_length ls : (length ls <= S (length (join 38 ls)))%nat.
Proof.
  induction ls as [|l ls IH]; [cbn; lia|]. destruct ls as [|l2 ls]; [cbn; lia|].
  change (join 38 (l :: l2 :: ls)) with (l ++ 38 :: join 38 (l2 :: ls)). rewrite app_length. cbn [length] in *. lia.
Qed.

(** A query of any text is the join of its pieces. *)
Fixpoint split_at (c : Z) (l : list Z) : list (list Z) :=
  match l with
  | [] => [[]]
  | x :: l' => if x =? c then [] :: split_at c l'
               else match split_at c l' with p :: ps => (x :: p) :: ps | [] => [[x]] end
  end.
Lemma split_at_nonempty c l : split_at c l <> [].
Proof. destruct l as [|x l]; cbn; [discriminate|]. destruct (x =? c); [discriminate|]. destruct (split_at c l); discriminate. Qed.
Lemma split_join c l : join c (split_at c l) = l /\ Forall (without c) (split_at c l).
Proof.
  induction l as [|x l IH]; cbn [split_at].
  - split; [reflexivity|]. constructor; [intros []|constructor].
  - destruct IH as [IH1 IH2]. pose proof (split_at_nonempty c l) as Hn. destruct (x =? c) eqn:E.
    + assert (x = c) as -> by lia. split; [|constructor; [intros []|exact IH2]].
      destruct (split_at c l) as [|p ps]; [congruence|]. cbn [join app]. cbn [join] in IH1. rewrite IH1. reflexivity.
    + destruct (split_at c l) as [|p ps]; [congruence|]. inversion_clear IH2 as [|? ? Hp Hps]. split.
      * rewrite <- IH1. destruct ps; reflexivity.
      * constructor; [|exact Hps]. intros [Hin|Hin]; [lia|exact (Hp Hin)].
Qed.
Lemma query_loop_mono f : forall l r, query_loop f l = Ok r -> query_loop (S f) l = Ok r.
Proof.
  induction f as [|f IH]; intros l r H; [discriminate|]. cbn [query_loop] in H.
  remember (S f) as f1 eqn:Ef. cbn [query_loop]. subst f1.
  destruct (find_char 61 l) as [ik|]; [|exact H]. destruct (find_char 38 (drop (ik + 1) l)) as [iv|]; [|exact H].
  destruct (query_loop f (drop (iv + 1) (drop (ik + 1) l))) as [m| | |] eqn:E; cbn [bind] in H; try discriminate.
  rewrite (IH _ _ E). exact H.
Qed.
Lemma cut_eq_first k v : without 61 k -> cut_eq (k ++ 61 :: v) = Some (k, v).
Proof.
  intros H. induction k as [|c k IH]; cbn [app cut_eq]; [reflexivity|].
  destruct (c =? 61) eqn:E; [exfalso; apply H; left; lia|].
  rewrite IH by (intros Hin; apply H; right; exact Hin). reflexivity.
Qed.
Lemma cut_eq_none l : without 61 l -> cut_eq l = None.
Proof.
  intros H. induction l as [|c l IH]; cbn [cut_eq]; [reflexivity|].
  destruct (c =? 61) eqn:E; [exfalso; apply H; left; lia|].
  rewrite IH by (intros Hin; apply H; right; exact Hin). reflexivity.
Qed.
Lemma query_loop_any l : exists pieces, l = join 38 pieces /\ Forall (without 38) pieces /\
  query_loop (S (length l)) l = Ok (params_of [] pieces).
Proof.
  destruct l as [|c l].
  - exists []. split; [reflexivity|]. split; [constructor|reflexivity].
  - destruct (split_join 38 (c :: l)) as [H1 H2]. exists (split_at 38 (c :: l)). split; [congruence|]. split; [exact H2|].
    pose proof (query_loop_ok (split_at 38 (c :: l)) (S (S (length (c :: l)))) [] H2 ltac:(intros [])) as H.
    rewrite H1 in H. cbn [app] in H.
    (* the number of '=' still ahead bounds the rounds *)
    assert (Hlen : forall f l, (length l < f)%nat -> exists r, query_loop f l = Ok r).
    { clear. induction f as [|f IH]; intros l Hl; [lia|]. cbn [query_loop].
      destruct (find_char 61 l) as [ik|] eqn:E1; [|eauto].
      destruct (find_char 38 (drop (ik + 1) l)) as [iv|] eqn:E2; [|eauto].
      assert (Hpos : forall c l i, find_char c l = Some i -> 0 <= i < zlen l).
      { clear. induction l as [|x l IH]; intros i H; [discriminate|]. cbn [find_char] in H. rewrite zlen_cons.
        pose proof (zlen_nonneg l). destruct (x =? c); [injection H as <-; lia|].
        destruct (find_char c l) as [j|]; [|discriminate]. injection H as <-. specialize (IH j eq_refl). lia. }
      pose proof (Hpos _ _ _ E1) as P1. pose proof (Hpos _ _ _ E2) as P2.
      destruct (IH (drop (iv + 1) (drop (ik + 1) l))) as (r & ->); [|cbn [bind]; eauto].
      assert (zlen (drop (iv + 1) (drop (ik + 1) l)) < zlen l).
      { rewrite !zlen_drop by lia. lia. }
      unfold zlen in *. lia. }
    destruct (Hlen (S (length (c :: l))) (c :: l)) as (r & Hr); [lia|].
    rewrite Hr. apply query_loop_mono in Hr. rewrite <- Hr. apply H.
    pose proof (join_length (split_at 38 (c :: l))) as J. rewrite H1 in J. lia.
Qed.

(** ** First and last values *)
Lemma kv_find_first k l v : first_value k l v -> kv_find k l = Some v.
Proof.
  intros (a & b & -> & Hn). induction a as [|[k' v'] a IH]; cbn [app kv_find].
  - rewrite eqb_list_refl. reflexivity.
  - rewrite eqb_list_neq; [apply IH; intros Hin; apply Hn; right; exact Hin|]. intros ->. apply Hn. left. reflexivity.
Qed.
Lemma kv_find_none k l : ~ In k (map fst l) -> kv_find k l = None.
Proof.
  induction l as [|[k' v'] l IH]; intros Hn; [reflexivity|]. cbn [kv_find]. rewrite eqb_list_neq.
  - apply IH. intros Hin. apply Hn. right. exact Hin.
  - intros ->. apply Hn. left. reflexivity.
Qed.
Lemma kv_last_none k l d : ~ In k (map fst l) -> kv_last k l d = d.
Proof.
  revert d. induction l as [|[k' v'] l IH]; intros d Hn; [reflexivity|]. cbn [kv_last fst snd]. rewrite eqb_list_neq.
  - apply IH. intros Hin. apply Hn. right. exact Hin.
  - intros ->. apply Hn. left. reflexivity.
Qed.
Lemma kv_last_last k l v : last_value k l v -> forall d, kv_last k l d = v.
Proof.
  intros (a & b & -> & Hn). induction a as [|[k' v'] a IH]; intros d; cbn [app kv_last fst snd].
  - rewrite eqb_list_refl. apply kv_last_none. exact Hn.
  - apply IH.
Qed.

(** ** parse_url on well-formed URLs *)
Definition ext_of (path d : list Z) : list Z := match rfind_char 46 path with Some n => drop (n + 1) path | None => d end.
Lemma ext_of_has path e d : has_ext path e -> ext_of path d = e.
Proof.
  intros (a & -> & H). unfold ext_of. rewrite rfind_char_last by exact H.
  change (46 :: e) with ([46] ++ e). rewrite app_assoc, drop_app_exact; [reflexivity|]. rewrite zlen_app. reflexivity.
Qed.
Lemma ext_of_none path d : without 46 path -> ext_of path d = d.
Proof. intros H. unfold ext_of. rewrite rfind_char_none by exact H. reflexivity. Qed.

Lemma parse_url_ok lib r schema host port path query : url_lib_ok lib -> url_wf schema host port path query ->
  rq_path r = [] -> rq_params r = [] -> rq_pp r = [] -> schema <> str "file" ->
  exists pp, query_loop (S (length (opt_or query []))) (opt_or query []) = Ok pp /\
  parse_url lib r (url_text schema host port path query) =
    (Ok 0, mkrq (opt_or path [] ++ match query with None => [] | Some q => 63 :: q end)
                (match rq_method r with [] => str "GET" | m => m end) schema
                (match port with Some p => dec_value p 0 | None => default_port schema end)
                host (opt_or path []) (ext_of (opt_or path []) (rq_ext r)) (opt_or query []) pp (rq_headers r)).
Proof.
  intros Hlib Hwf R1 R2 R3 Hfile. destruct (query_loop_any (opt_or query [])) as (pieces & _ & _ & Hq).
  exists (params_of [] pieces). split; [exact Hq|]. unfold parse_url. rewrite (lib_parts lib Hlib _ _ _ _ _ Hwf).
  cbn [up_schema up_host up_port up_path up_query]. rewrite R1, R2, R3. cbn [opt_or] in *.
  change (match query with Some x => x | None => [] end) with (opt_or query []).
  rewrite Hq. rewrite eqb_list_neq by exact Hfile. cbn [app].
  destruct Hwf as [_ _ _ _ Hqn]. unfold ext_of.
  replace (match option_map (fun p => dec_value p 0) port with Some p => p | None => default_port schema end)
    with (match port with Some p => dec_value p 0 | None => default_port schema end) by (destruct port; reflexivity).
  destruct query as [q|]; cbn [opt_or] in *; [|reflexivity].
  destruct q as [|c q]; [destruct Hqn; congruence|]. reflexivity.
Qed.

(** ** Stream ids *)
Lemma sid_scan_plain l : forall key cur rest, without 61 l -> without 44 l ->
  sid_scan (l ++ rest) key cur = sid_scan rest key (cur ++ l).
Proof.
  induction l as [|c l IH]; intros key cur rest H1 H2; cbn [app sid_scan]; [rewrite app_nil_r; reflexivity|].
  destruct (c =? 44) eqn:E1; [exfalso; apply H2; left; lia|].
  destruct (c =? 61) eqn:E2; [exfalso; apply H1; left; lia|].
  rewrite IH; [rewrite <- app_assoc; reflexivity| |]; intros Hin; [apply H1|apply H2]; right; exact Hin.
Qed.
Lemma sid_scan_rest l : without 44 l -> forall key cur, sid_scan l key cur = [].
Proof.
  induction l as [|c l IH]; intros H key cur; [reflexivity|]. cbn [sid_scan].
  destruct (c =? 44) eqn:E1; [exfalso; apply H; left; lia|].
  assert (H' : without 44 l) by (intros Hin; apply H; right; exact Hin).
  destruct (c =? 61); apply IH; exact H'.
Qed.
Lemma sid_scan_ok pairs rest : Forall sid_pair_ok pairs -> without 44 rest ->
  sid_scan (sid_text pairs ++ rest) [] [] = pairs.
Proof.
  intros Hf Hr. induction Hf as [|[k v] l Hp Hl IH]; [apply sid_scan_rest; exact Hr|].
  destruct Hp as (H1 & H2 & H3 & H4). cbn [fst snd] in *. cbn [sid_text flat_map fst snd].
  rewrite <- !app_assoc. cbn [app]. rewrite <- !app_assoc. rewrite sid_scan_plain by assumption. cbn [sid_scan app].
  change (61 =? 44) with false. change (61 =? 61) with true. cbn iota.
  rewrite sid_scan_plain by assumption. cbn [sid_scan app]. change (44 =? 44) with true. cbn iota.
  f_equal. exact IH.
Qed.

(** ** Stream keys and formats *)
Lemma cache_key_dot r p e : rq_path r = p ++ 46 :: e -> rq_ext r = e -> e <> [] -> e <> str "-" ->
  zlen (rq_path r) < 2 ^ 64 -> cache_key r = rq_host r ++ p.
Proof.
  intros Hp He Hn Hd Hl. unfold cache_key. rewrite He, eqb_list_neq, zlen_pos_ne by assumption. cbn [orb].
  f_equal. rewrite Hp in *. rewrite zlen_app, zlen_cons in *.
  pose proof (zlen_nonneg p). pose proof (zlen_nonneg e).
  replace (zlen p + (1 + zlen e) - zlen e - 1) with (zlen p) by lia.
  unfold u64. rewrite Z.mod_small by lia. apply take_app_exact. reflexivity.
Qed.
Lemma cache_key_nodot r : rq_ext r = [] \/ rq_ext r = str "-" -> cache_key r = rq_host r ++ rq_path r.
Proof. intros [H|H]; unfold cache_key; rewrite H; reflexivity. Qed.

Lemma fmt_match_spec f e : zlen f <= zlen e + 1 ->
  exists b, fmt_match f e = Ok b /\ (b = true <-> exists x, e ++ [0] = f ++ x).
Proof.
  intros H. unfold fmt_match. rewrite zlen_app. change (zlen [0]) with 1.
  destruct (zlen e + 1 <? zlen f) eqn:E; [lia|]. eexists. split; [reflexivity|]. rewrite eqb_list_spec. split.
  - intros He. exists (drop (zlen f) (e ++ [0])). rewrite He at 1. symmetry. apply take_drop.
  - intros (x & ->). symmetry. apply take_app_exact. reflexivity.
Qed.
Lemma fmt_match_prefix f e : ~ In 0 f -> zlen f <= zlen e + 1 ->
  exists b, fmt_match f e = Ok b /\ (b = true <-> exists x, e = f ++ x).
Proof.
  intros H0 Hl. destruct (fmt_match_spec f e Hl) as (b & Hb & Hs). exists b. split; [exact Hb|]. rewrite Hs. split.
  - intros (x & Hx). destruct (exists_last (l := f ++ x)) as (y & z & Hy).
    { rewrite <- Hx. destruct e; discriminate. }
    destruct x as [|x0 x] using rev_ind.
    + rewrite app_nil_r in Hx. exfalso. apply H0. rewrite <- Hx. apply in_or_app. right. left. reflexivity.
    + rewrite app_assoc in Hx. apply app_inj_tail in Hx as [Hx _]. exists x. exact Hx.
  - intros (x & ->). exists (x ++ [0]). rewrite <- app_assoc. reflexivity.
Qed.
