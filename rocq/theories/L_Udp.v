(** Lemmas for UDP sessions. *)
From Verif Require Import Base M_Text M_Udp S_Udp.

Lemma sublist_refl {A} (l : list A) : sublist l l.
Proof. induction l; constructor; assumption. Qed.
Lemma sublist_insert {A} (x : list A) a d b : sublist x (a ++ b) -> sublist x (a ++ d :: b).
Proof.
  revert x. induction a as [|y a IH]; intros x H; cbn [app] in *; [constructor; exact H|].
  inversion H; subst; constructor; apply IH; assumption.
Qed.
Definition q_inv (q : uqueue) : Prop := uq_size q = zlen (uq_list q) /\ zlen (uq_list q) <= 4000.
Lemma q_inv_new : q_inv uq_new.
Proof. split; [reflexivity|cbn; lia]. Qed.
Lemma q_inv_push q d : q_inv q -> q_inv (uq_push q d).
Proof.
  intros (H1 & H2). unfold uq_push, uq_max. destruct (4000 <=? uq_size q) eqn:E; [split; assumption|].
  unfold q_inv. cbn [uq_list uq_size]. rewrite zlen_app. change (zlen [d]) with 1. lia.
Qed.
Lemma q_inv_read q n r q1 : q_inv q -> uq_read q n = (r, q1) -> q_inv q1.
Proof.
  intros (H1 & H2). unfold uq_read. destruct (uq_list q) as [|d l] eqn:E; [intros [= <- <-]; split; rewrite E; assumption|].
  destruct (n <? zlen d); intros [= <- <-]; [split; rewrite E; assumption|].
  unfold q_inv. cbn [uq_list uq_size]. rewrite zlen_cons in *. lia.
Qed.
Lemma q_run_fifo ops : forall q rs q', q_inv q -> q_run q ops = (rs, q') ->
  sublist (delivered rs ++ uq_list q') (uq_list q ++ arrivals ops) /\ q_inv q'.
Proof.
  induction ops as [|[d|n] ops IH]; intros q rs q' Hq H; cbn [q_run arrivals] in *.
  - injection H as <- <-. cbn. rewrite app_nil_r. split; [apply sublist_refl|exact Hq].
  - destruct (IH _ _ _ (q_inv_push q d Hq) H) as (A & B). split; [|exact B].
    unfold uq_push in A. destruct (uq_max <=? uq_size q); [apply sublist_insert; exact A|]. cbn [uq_list] in A. rewrite <- app_assoc in A. exact A.
  - destruct (uq_read q n) as [r q1] eqn:Er. destruct (q_run q1 ops) as [rs1 q2] eqn:E2. injection H as <- <-.
    destruct (IH _ _ _ (q_inv_read _ _ _ _ Hq Er) E2) as (A & B). split; [|exact B].
    unfold uq_read in Er. destruct (uq_list q) as [|d l] eqn:El; [injection Er as <- <-; rewrite El in A; exact A|].
    destruct (n <? zlen d); injection Er as <- <-; [rewrite El in A; exact A|]. cbn [delivered app uq_list] in *. constructor. exact A.
Qed.
Lemma q_run_no_loss n ops : forall q rs q', q_inv q -> Forall (fun d => zlen d <= n) (uq_list q) -> room n ops ->
  backlog_ok 4000 (zlen (uq_list q)) ops -> q_run q ops = (rs, q') ->
  delivered rs ++ uq_list q' = uq_list q ++ arrivals ops.
Proof.
  induction ops as [|[d|k] ops IH]; intros q rs q' Hq Hl Hr Hb H; cbn [q_run arrivals backlog_ok] in *.
  - injection H as <- <-. cbn. rewrite app_nil_r. reflexivity.
  - destruct Hb as (Hb1 & Hb2). pose proof Hq as (Hs & _). pose proof (q_inv_push q d Hq) as Hq1. unfold uq_push, uq_max in *.
    replace (4000 <=? uq_size q) with false in * by lia.
    rewrite (IH _ _ _ Hq1 ltac:(cbn [uq_list]; apply Forall_app; split; [exact Hl|constructor; [exact (Forall_inv Hr)|constructor]]) (Forall_inv_tail Hr)
      ltac:(cbn [uq_list]; rewrite zlen_app; exact Hb2) H).
    cbn [uq_list]. rewrite <- app_assoc. reflexivity.
  - destruct (uq_read q k) as [r q1] eqn:Er. destruct (q_run q1 ops) as [rs1 q2] eqn:E2. injection H as <- <-.
    pose proof (q_inv_read _ _ _ _ Hq Er) as Hq1. unfold uq_read in Er. destruct (uq_list q) as [|d l] eqn:El.
    + injection Er as <- <-. cbn [delivered]. rewrite (IH _ _ _ Hq1 ltac:(rewrite El; constructor) (Forall_inv_tail Hr) ltac:(rewrite El; exact Hb) E2), El. reflexivity.
    + pose proof (Forall_inv Hl) as Hd. pose proof (Forall_inv Hr) as Hk. cbn beta iota in Hk, Hd. replace (k <? zlen d) with false in Er by lia.
      injection Er as <- <-. cbn [delivered app]. f_equal.
      apply (IH (mkuq l (uq_size q - 1)) rs1 q2 Hq1 (Forall_inv_tail Hl) (Forall_inv_tail Hr)); [|exact E2].
      cbn [uq_list]. rewrite zlen_cons in Hb. pose proof (zlen_nonneg l). replace (zlen l) with (Z.max 0 (1 + zlen l - 1)) by lia. exact Hb.
Qed.
Lemma q_run_wedge d ops : forall q rs q' l, uq_list q = d :: l ->
  Forall (fun op => match op with QRead n => n < zlen d | _ => True end) ops -> q_run q ops = (rs, q') ->
  Forall (fun r => r = Err ERROR_SOCKET_BUFFER_SMALL) rs /\ (exists l', uq_list q' = d :: l').
Proof.
  induction ops as [|[x|n] ops IH]; intros q rs q' l Hl Hs H; cbn [q_run] in H.
  - injection H as <- <-. split; [constructor|eauto].
  - assert (exists l1, uq_list (uq_push q x) = d :: l1) as (l1 & H1).
    { unfold uq_push. destruct (_ <=? _); [eauto|]. cbn. rewrite Hl. cbn. eauto. }
    eapply IH; [exact H1|exact (Forall_inv_tail Hs)|exact H].
  - pose proof (Forall_inv Hs) as Hn. cbn beta iota in Hn. unfold uq_read in H. rewrite Hl in H. replace (n <? zlen d) with true in H by lia.
    destruct (q_run q ops) as [rs1 q2] eqn:E2. injection H as <- <-.
    destruct (IH _ _ _ _ Hl (Forall_inv_tail Hs) E2) as (A & B). split; [constructor; [reflexivity|exact A]|exact B].
Qed.
(** Reads of a whole size from datagrams. *)
Lemma read_fully_exact a : forall fuel q size got b,
  uq_list q = a ++ b -> (length a < fuel)%nat -> zlen got + zlen (concat a) = size ->
  (forall p d s, a = p ++ d :: s -> zlen got + zlen (concat p) < size) ->
  exists m, uq_read_fully fuel q size got = (Ok (got ++ concat a), mkuq b m).
Proof.
  induction a as [|d a IH]; intros fuel q size got b Hl Hf Hs Hp; (destruct fuel as [|fuel]; [cbn [length] in Hf; lia|]); cbn [uq_read_fully].
  - cbn [concat app] in *. change (zlen (@nil Z)) with 0 in Hs. replace (size <=? zlen got) with true by lia.
    rewrite app_nil_r. exists (uq_size q). destruct q; cbn in *. congruence.
  - pose proof (Hp [] d a eq_refl) as H0. cbn [concat] in H0. change (zlen (@nil Z)) with 0 in H0. replace (size <=? zlen got) with false by lia.
    unfold uq_read. rewrite Hl. cbn [app concat] in *. rewrite zlen_app in Hs. pose proof (zlen_nonneg (concat a)).
    replace (size - zlen got <? zlen d) with false by lia.
    destruct (IH fuel (mkuq (a ++ b) (uq_size q - 1)) size (got ++ d) b eq_refl) as (m & Hm).
    + cbn [length] in Hf. lia.
    + rewrite zlen_app. lia.
    + intros p x s Ha. rewrite zlen_app. specialize (Hp (d :: p) x s ltac:(rewrite Ha; reflexivity)). cbn [concat] in Hp. rewrite zlen_app in Hp. lia.
    + exists m. rewrite Hm, app_assoc. reflexivity.
Qed.
Lemma read_fully_cut a : forall fuel q size got d b,
  uq_list q = a ++ d :: b -> (length a < fuel)%nat ->
  zlen got + zlen (concat a) < size < zlen got + zlen (concat a) + zlen d ->
  exists m, uq_read_fully fuel q size got = (Err ERROR_SOCKET_BUFFER_SMALL, mkuq (d :: b) m).
Proof.
  induction a as [|x a IH]; intros fuel q size got d b Hl Hf Hs; (destruct fuel as [|fuel]; [cbn [length] in Hf; lia|]); cbn [uq_read_fully].
  - cbn [concat app] in *. change (zlen (@nil Z)) with 0 in Hs. replace (size <=? zlen got) with false by lia.
    unfold uq_read. rewrite Hl. replace (size - zlen got <? zlen d) with true by lia. exists (uq_size q). destruct q; cbn in *. congruence.
  - cbn [concat app] in *. rewrite zlen_app in Hs. pose proof (zlen_nonneg (concat a)). pose proof (zlen_nonneg x).
    replace (size <=? zlen got) with false by lia. unfold uq_read. rewrite Hl. replace (size - zlen got <? zlen x) with false by lia.
    eapply IH; [reflexivity|cbn [length] in Hf; lia|]. rewrite zlen_app. lia.
Qed.

(** ** The server *)
Lemma set_nth_length {A} i (x : A) l : length (set_nth i x l) = length l.
Proof. revert i; induction l as [|y l IH]; intros [|i]; cbn; auto. Qed.
Lemma nth_set_same {A} i (x : A) l : (i < length l)%nat -> nth_error (set_nth i x l) i = Some x.
Proof. revert i; induction l as [|y l IH]; intros [|i] H; cbn in *; try lia; [reflexivity|apply IH; lia]. Qed.
Lemma nth_set_other {A} i j (x : A) l : i <> j -> nth_error (set_nth i x l) j = nth_error l j.
Proof. revert i j; induction l as [|y l IH]; intros [|i] [|j] H; cbn; try reflexivity; try congruence. apply IH. congruence. Qed.
Lemma get_lt s i u : get_sess s i = Some u -> (i < length (uv_sess s))%nat.
Proof.
  unfold get_sess. destruct (nth_error (uv_sess s) i) eqn:E; [|discriminate]. intros _. apply nth_error_Some. congruence.
Qed.
Lemma get_set_same s i u x : get_sess s i = Some u -> get_sess (set_sess s i x) i = x.
Proof. intros H. apply get_lt in H. unfold get_sess, set_sess. cbn [uv_sess]. rewrite nth_set_same by exact H. destruct x; reflexivity. Qed.
Lemma get_set_other s i j x : i <> j -> get_sess (set_sess s i x) j = get_sess s j.
Proof. intros H. unfold get_sess, set_sess. cbn [uv_sess]. rewrite nth_set_other by exact H. reflexivity. Qed.
Lemma map_find_in k m i : map_find k m = Some i -> In (k, i) m.
Proof.
  induction m as [|[k' v] m IH]; cbn [map_find]; [discriminate|]. destruct (eqb_list k' k) eqn:E; [|intros; right; auto].
  apply eqb_list_spec in E. intros [= ->]. left. congruence.
Qed.
Lemma map_find_none k m : map_find k m = None -> ~ In k (map fst m).
Proof.
  induction m as [|[k' v] m IH]; cbn [map_find map fst In]; [tauto|]. destruct (eqb_list k' k) eqn:E; [discriminate|].
  intros H [->|Hin]; [rewrite eqb_list_refl in E; discriminate|]. apply IH; assumption.
Qed.
Lemma map_find_of k m i : NoDup (map fst m) -> In (k, i) m -> map_find k m = Some i.
Proof.
  induction m as [|[k' v] m IH]; cbn [map_find map fst In]; [tauto|]. intros Hn [[= -> ->]|Hin]; [rewrite eqb_list_refl; reflexivity|].
  inversion Hn as [|? ? Hni Hn']; subst. rewrite eqb_list_neq; [auto|]. intros ->. apply Hni. apply (in_map fst) in Hin. exact Hin.
Qed.
(** The map holds exactly the live sessions, each under its own key. *)
Definition uinv (s : userv) : Prop :=
  NoDup (map fst (uv_map s)) /\
  (forall k i, In (k, i) (uv_map s) <-> exists u, get_sess s i = Some u /\ ukey (us_addr u) = k).
Lemma get_app s i x m nw : get_sess (mkuv (uv_sess s ++ [x]) m nw) i =
  if (i <? length (uv_sess s))%nat then get_sess s i else if (i =? length (uv_sess s))%nat then x else None.
Proof.
  unfold get_sess. cbn [uv_sess]. destruct (i <? length (uv_sess s))%nat eqn:E.
  - apply Nat.ltb_lt in E. rewrite nth_error_app1 by exact E. reflexivity.
  - apply Nat.ltb_ge in E. rewrite nth_error_app2 by exact E. destruct (i =? length (uv_sess s))%nat eqn:E2.
    + apply Nat.eqb_eq in E2. subst i. rewrite Nat.sub_diag. cbn. destruct x; reflexivity.
    + apply Nat.eqb_neq in E2. destruct (i - length (uv_sess s))%nat as [|k] eqn:E3; [lia|]. cbn. destruct k; reflexivity.
Qed.
Lemma uinv_same s s' : (forall i u', get_sess s' i = Some u' -> exists u, get_sess s i = Some u /\ us_addr u = us_addr u') ->
  (forall i u, get_sess s i = Some u -> exists u', get_sess s' i = Some u' /\ us_addr u = us_addr u') -> uv_map s' = uv_map s ->
  uinv s -> uinv s'.
Proof.
  intros H1 H2 Hm (N & H). split; [rewrite Hm; exact N|]. intros k i. rewrite Hm, H. split; intros (u & Hu & Hk).
  - destruct (H2 _ _ Hu) as (u' & Hu' & Ha). exists u'. rewrite <- Ha. auto.
  - destruct (H1 _ _ Hu) as (u' & Hu' & Ha). exists u'. rewrite Ha. auto.
Qed.
Lemma uinv_upd s i u q : get_sess s i = Some u -> uinv s -> uinv (set_sess s i (Some (mkus (us_addr u) q))).
Proof.
  intros Hg. apply uinv_same; [| |reflexivity].
  - intros j u' H. destruct (Nat.eq_dec i j) as [<-|Hn]; [rewrite (get_set_same _ _ _ _ Hg) in H; injection H as <-; eauto|].
    rewrite get_set_other in H by exact Hn. eauto.
  - intros j u' H. destruct (Nat.eq_dec i j) as [<-|Hn]; [rewrite (get_set_same _ _ _ _ Hg); eexists; split; [reflexivity|]; cbn; congruence|].
    rewrite get_set_other by exact Hn. eauto.
Qed.
Lemma u_step_inv nt s op s' o : uinv s -> u_step nt s op = (s', o) -> uinv s' /\ o <> UCrash.
Proof.
  intros Hi. pose proof Hi as (N & H). destruct op as [src dst pad data| |i n|i data|i]; cbn [u_step].
  - unfold u_arrive. destruct (map_find _ (uv_map s)) as [i|] eqn:Ef.
    + apply map_find_in in Ef. apply H in Ef as (u & Hu & Hk). rewrite Hu. intros [= <- <-]. split; [apply uinv_upd; assumption|discriminate].
    + intros [= <- <-]. split; [|discriminate]. apply map_find_none in Ef. split; cbn [uv_map].
      * rewrite map_app. cbn [map fst]. apply (NoDup_Add (a := ukey (recv_addrs nt src dst pad)) (l := map fst (uv_map s))).
        { replace (map fst (uv_map s)) with (map fst (uv_map s) ++ []) at 1 by apply app_nil_r. apply Add_app. }
        split; assumption.
      * intros k i. rewrite get_app. rewrite in_app_iff, H. cbn [In].
        destruct (i <? length (uv_sess s))%nat eqn:E1; [|destruct (i =? length (uv_sess s))%nat eqn:E2].
        { apply Nat.ltb_lt in E1. split; [intros [Hx|[[= <- <-]|[]]]; [exact Hx|lia]|auto]. }
        { apply Nat.eqb_eq in E2. subst i. split.
          - intros [(u & Hu & _)|[[= <-]|[]]]; [apply get_lt in Hu; lia|]. eexists. split; reflexivity.
          - intros (u & [= <-] & <-). right. left. reflexivity. }
        { apply Nat.ltb_ge in E1. apply Nat.eqb_neq in E2. split; [intros [(u & Hu & _)|[[= _ <-]|[]]]; [apply get_lt in Hu; lia|lia]|intros (u & [=] & _)]. }
  - destruct (uv_new s) as [|i l]; intros [= <- <-]; split; try discriminate; [exact Hi|]. exact Hi.
  - destruct (get_sess s i) as [u|] eqn:Eg; [|intros [= <- <-]; split; [exact Hi|discriminate]].
    destruct (uq_read (us_q u) n) as [r q]. intros [= <- <-]. split; [apply uinv_upd; assumption|discriminate].
  - destruct (get_sess s i) as [u|]; intros [= <- <-]; split; try exact Hi; try discriminate. unfold u_write. destruct data; discriminate.
  - destruct (get_sess s i) as [u|] eqn:Eg; [|intros [= <- <-]; split; [exact Hi|discriminate]].
    destruct (existsb _ _); intros [= <- <-]; (split; [|discriminate]); [exact Hi|].
    split; cbn [uv_map].
    + unfold map_erase. clear - N. induction (uv_map s) as [|[k v] m IH]; cbn [filter map fst]; [constructor|].
      inversion N as [|? ? Hn N']; subst. destruct (negb _); [|auto]. cbn [map fst]. constructor; [|auto].
      intros Hin. apply Hn. apply in_map_iff in Hin as ([k' v'] & Hk & Hin). apply filter_In in Hin as (Hin & _). apply (in_map fst) in Hin. cbn in *. congruence.
    + intros k j. unfold map_erase. rewrite filter_In, H. cbn [fst].
      change (get_sess (mkuv (set_nth i None (uv_sess s)) (filter (fun e => negb (eqb_list (fst e) (ukey (us_addr u)))) (uv_map s)) (uv_new s)) j) with (get_sess (set_sess s i None) j).
      destruct (Nat.eq_dec i j) as [<-|Hn].
      * rewrite (get_set_same _ _ _ _ Eg). split; [|intros (u' & [=] & _)]. intros ((u' & Hu' & Hk) & He). rewrite Eg in Hu'. injection Hu' as <-. subst k. rewrite eqb_list_refl in He. discriminate.
      * rewrite get_set_other by exact Hn. split; [tauto|]. intros (u' & Hu' & Hk). split; [eauto|].
        destruct (eqb_list k (ukey (us_addr u))) eqn:E; [|reflexivity]. exfalso. apply eqb_list_spec in E. subst k.
        assert (map_find (ukey (us_addr u)) (uv_map s) = Some i) as F1 by (apply map_find_of; [exact N|apply H; eauto]).
        assert (map_find (ukey (us_addr u)) (uv_map s) = Some j) as F2 by (apply map_find_of; [exact N|apply H; exists u'; auto]).
        congruence.
Qed.
Lemma uinv_start : uinv uv_start.
Proof.
  split; [constructor|]. intros k i. cbn. split; [intros []|]. intros (u & Hu & _). unfold get_sess in Hu. cbn in Hu. destruct i; discriminate.
Qed.
Lemma u_run_inv nt ops : forall s os s', uinv s -> u_run nt s ops = (os, s') -> uinv s' /\ ~ In UCrash os.
Proof.
  induction ops as [|op ops IH]; intros s os s' Hi H; cbn [u_run] in H.
  - injection H as <- <-. split; [exact Hi|intros []].
  - destruct (u_step nt s op) as [s1 o] eqn:E1. destruct (u_run nt s1 ops) as [os1 s2] eqn:E2. injection H as <- <-.
    destruct (u_step_inv _ _ _ _ _ Hi E1) as (H1 & Ho). destruct (IH _ _ _ H1 E2) as (H2 & Hos). split; [exact H2|]. intros [|]; auto.
Qed.
Lemma u_step_view nt s op s1 o i u : uinv s -> get_sess s i = Some u -> op <> UDestroy i -> u_step nt s op = (s1, o) ->
  exists u1, get_sess s1 i = Some u1 /\ us_addr u1 = us_addr u /\
    q_run (us_q u) (view_of nt (ukey (us_addr u)) i [op]) = (reads_of i [op] [o], us_q u1).
Proof.
  intros (N & H) Hg Hd. destruct op as [src dst pad data| |j n|j data|j]; cbn [u_step view_of reads_of].
  - unfold u_arrive. destruct (map_find _ (uv_map s)) as [j|] eqn:Ef.
    + apply map_find_in in Ef. apply H in Ef as (v & Hv & Hk). rewrite Hv. intros [= <- <-].
      destruct (Nat.eq_dec j i) as [->|Hn].
      * rewrite Hg in Hv. injection Hv as <-. rewrite (get_set_same _ _ _ _ Hg). rewrite Hk, eqb_list_refl. eexists. split; [reflexivity|split; reflexivity].
      * rewrite get_set_other by exact Hn. rewrite Hg. rewrite eqb_list_neq; [eexists; split; [reflexivity|split; reflexivity]|].
        intros He. apply Hn. assert (map_find (ukey (us_addr u)) (uv_map s) = Some i) as F1 by (apply map_find_of; [exact N|apply H; eauto]).
        assert (map_find (ukey (us_addr u)) (uv_map s) = Some j) as F2 by (apply map_find_of; [exact N|apply H; exists v; split; [exact Hv|congruence]]). congruence.
    + intros [= <- <-]. rewrite get_app. pose proof (get_lt _ _ _ Hg) as Hl. apply Nat.ltb_lt in Hl. rewrite Hl, Hg.
      rewrite eqb_list_neq; [eexists; split; [reflexivity|split; reflexivity]|].
      intros He. apply map_find_none in Ef. apply Ef. apply in_map_iff. exists (ukey (us_addr u), i). split; [symmetry; exact He|]. apply H. eauto.
  - destruct (uv_new s) as [|j l]; intros [= <- <-]; exists u; (split; [exact Hg|split; reflexivity]).
  - destruct (get_sess s j) as [v|] eqn:Ev.
    + destruct (uq_read (us_q v) n) as [r q] eqn:Er. intros [= <- <-]. destruct (Nat.eqb j i) eqn:Ej.
      * apply Nat.eqb_eq in Ej. subst j. rewrite Hg in Ev. injection Ev as <-. rewrite (get_set_same _ _ _ _ Hg).
        eexists. split; [reflexivity|]. split; [reflexivity|]. cbn [q_run]. rewrite Er. reflexivity.
      * apply Nat.eqb_neq in Ej. rewrite get_set_other by exact Ej. exists u. split; [exact Hg|split; reflexivity].
    + intros [= <- <-]. destruct (Nat.eqb j i) eqn:Ej; [apply Nat.eqb_eq in Ej; congruence|]. exists u. split; [exact Hg|split; reflexivity].
  - destruct (get_sess s j) as [v|]; intros [= <- <-]; exists u; (split; [exact Hg|split; reflexivity]).
  - assert (j <> i) as Hn by congruence. destruct (get_sess s j) as [v|]; [|intros [= <- <-]; exists u; (split; [exact Hg|split; reflexivity])].
    destruct (existsb _ _); intros [= <- <-]; exists u; (split; [|split; reflexivity]); [exact Hg|].
    change (get_sess (set_sess s j None) i = Some u). rewrite get_set_other by exact Hn. exact Hg.
Qed.
Lemma view_cons nt k i op ops : view_of nt k i (op :: ops) = view_of nt k i [op] ++ view_of nt k i ops.
Proof. destruct op; cbn [view_of]; try reflexivity; [destruct (eqb_list _ _)|destruct (Nat.eqb _ _)]; reflexivity. Qed.
Lemma reads_cons i op ops o os : reads_of i (op :: ops) (o :: os) = reads_of i [op] [o] ++ reads_of i ops os.
Proof. destruct op; cbn [reads_of]; try reflexivity. destruct o; try reflexivity. destruct (Nat.eqb _ _); reflexivity. Qed.
Lemma q_run_app a : forall q b, q_run q (a ++ b) =
  let '(r1, q1) := q_run q a in let '(r2, q2) := q_run q1 b in (r1 ++ r2, q2).
Proof.
  induction a as [|[d|n] a IH]; intros q b; cbn [q_run app].
  - destruct (q_run q b); reflexivity.
  - apply IH.
  - destruct (uq_read q n) as [r q1]. rewrite IH. destruct (q_run q1 a) as [r1 q2]. destruct (q_run q2 b) as [r2 q3]. reflexivity.
Qed.
Lemma u_run_view nt i ops : forall s os s' u, uinv s -> get_sess s i = Some u -> ~ In (UDestroy i) ops -> u_run nt s ops = (os, s') ->
  exists u', get_sess s' i = Some u' /\ us_addr u' = us_addr u /\
    q_run (us_q u) (view_of nt (ukey (us_addr u)) i ops) = (reads_of i ops os, us_q u').
Proof.
  induction ops as [|op ops IH]; intros s os s' u Hi Hg Hd H; cbn [u_run] in H.
  - injection H as <- <-. exists u. auto.
  - destruct (u_step nt s op) as [s1 o] eqn:E1. destruct (u_run nt s1 ops) as [os1 s2] eqn:E2. injection H as <- <-.
    destruct (u_step_inv _ _ _ _ _ Hi E1) as (H1 & _).
    destruct (u_step_view nt s op s1 o i u Hi Hg ltac:(intros ->; apply Hd; left; reflexivity) E1) as (u1 & Hg1 & Ha1 & Hq1).
    destruct (IH s1 os1 s2 u1 H1 Hg1 ltac:(intros Hx; apply Hd; right; exact Hx) E2) as (u2 & Hg2 & Ha2 & Hq2).
    exists u2. split; [exact Hg2|]. split; [congruence|]. rewrite view_cons, reads_cons, q_run_app, Hq1. rewrite Ha1 in Hq2. rewrite Hq2. reflexivity.
Qed.
Lemma u_step_resend nt s f op : u_step nt s (resend f op) = u_step nt s op.
Proof. destruct op; reflexivity. Qed.
Lemma u_run_resend nt f ops : forall s, u_run nt s (map (resend f) ops) = u_run nt s ops.
Proof. induction ops as [|op ops IH]; intros s; cbn [map u_run]; [reflexivity|]. rewrite u_step_resend. destruct (u_step nt s op) as [s1 o]. rewrite IH. reflexivity. Qed.
(** Every session was made from the addresses of some datagram. *)
Definition all_addr (P : addrs -> Prop) (s : userv) : Prop := forall i u, get_sess s i = Some u -> P (us_addr u).
Lemma u_step_addr nt (P : addrs -> Prop) s op s1 o : all_addr P s ->
  (forall src dst pad data, op = UArrive src dst pad data -> P (recv_addrs nt src dst pad)) ->
  u_step nt s op = (s1, o) -> all_addr P s1.
Proof.
  intros HA Hop. destruct op as [src dst pad data| |j n|j data|j]; cbn [u_step].
  - unfold u_arrive. destruct (map_find _ (uv_map s)) as [j|].
    + destruct (get_sess s j) as [v|] eqn:Ev; intros [= <- <-]; [|exact HA]. intros i u. destruct (Nat.eq_dec j i) as [<-|Hn].
      * rewrite (get_set_same _ _ _ _ Ev). intros [= <-]. cbn. eauto.
      * rewrite get_set_other by exact Hn. apply HA.
    + intros [= <- <-]. intros i u. rewrite get_app. destruct (i <? _)%nat; [apply HA|]. destruct (i =? _)%nat; [|discriminate]. intros [= <-]. cbn. eauto.
  - destruct (uv_new s); intros [= <- <-]; exact HA.
  - destruct (get_sess s j) as [v|] eqn:Ev; [|intros [= <- <-]; exact HA]. destruct (uq_read (us_q v) n) as [r q]. intros [= <- <-].
    intros i u. destruct (Nat.eq_dec j i) as [<-|Hn].
    + rewrite (get_set_same _ _ _ _ Ev). intros [= <-]. cbn. eauto.
    + rewrite get_set_other by exact Hn. apply HA.
  - destruct (get_sess s j); intros [= <- <-]; exact HA.
  - destruct (get_sess s j) as [v|] eqn:Ev; [|intros [= <- <-]; exact HA]. destruct (existsb _ _); intros [= <- <-]; [exact HA|].
    intros i u Hx. change (get_sess (set_sess s j None) i = Some u) in Hx. destruct (Nat.eq_dec j i) as [<-|Hn].
    + rewrite (get_set_same _ _ _ _ Ev) in Hx. discriminate.
    + rewrite get_set_other in Hx by exact Hn. eauto.
Qed.
Lemma u_run_addr nt (P : addrs -> Prop) ops : forall s os s', all_addr P s ->
  (forall src dst pad data, In (UArrive src dst pad data) ops -> P (recv_addrs nt src dst pad)) ->
  u_run nt s ops = (os, s') -> all_addr P s'.
Proof.
  induction ops as [|op ops IH]; intros s os s' HA Ho H; cbn [u_run] in H; [injection H as <- <-; exact HA|].
  destruct (u_step nt s op) as [s1 o] eqn:E1. destruct (u_run nt s1 ops) as [os1 s2] eqn:E2. injection H as <- <-.
  eapply IH; [|intros; apply (Ho src dst pad data); right; assumption|exact E2].
  refine (u_step_addr nt P s op s1 o HA _ E1). intros src dst pad data ->. apply (Ho src dst pad data). left. reflexivity.
Qed.
Lemma start_addr P : all_addr P uv_start.
Proof. intros i u. unfold get_sess. cbn. destruct i; discriminate. Qed.
Lemma u_run_sent nt ops : forall s os s', all_addr (fun a => ad_pport a = 0) s -> u_run nt s ops = (os, s') ->
  Forall (fun o => match o with USent ip port _ => ip = [0; 0; 0; 0] /\ port = 0 | _ => True end) os.
Proof.
  induction ops as [|op ops IH]; intros s os s' HA H; cbn [u_run] in H; [injection H as <- <-; constructor|].
  destruct (u_step nt s op) as [s1 o] eqn:E1. destruct (u_run nt s1 ops) as [os1 s2] eqn:E2. injection H as <- <-.
  pose proof (u_step_addr nt _ _ _ _ _ HA ltac:(intros; reflexivity) E1) as HA1.
  constructor; [|eapply IH; eassumption].
  destruct op as [src dst pad data| |j n|j data|j]; cbn [u_step] in E1.
  - unfold u_arrive in E1. destruct (map_find _ _) as [j|]; [destruct (get_sess s j)|]; injection E1 as <- <-; exact I.
  - destruct (uv_new s); injection E1 as <- <-; exact I.
  - destruct (get_sess s j) as [v|]; [destruct (uq_read _ _)|]; injection E1 as <- <-; exact I.
  - destruct (get_sess s j) as [v|] eqn:Ev; injection E1 as <- <-; [|exact I]. unfold u_write. destruct data; [exact I|]. rewrite (HA _ _ Ev). split; reflexivity.
  - destruct (get_sess s j) as [v|]; [destruct (existsb _ _)|]; injection E1 as <- <-; exact I.
Qed.
Lemma ordinary_key nt src dst pad data : ordinary (UArrive src dst pad data) -> recv_addrs nt src dst pad = mkad [] 0 [] 0.
Proof.
  unfold recv_addrs, dst_view, ordinary. destruct dst as [|a [|b [|c [|d [|]]]]]; try reflexivity. intros H.
  replace ((a =? 2) && (b =? 0)) with false by lia. replace ((a =? 10) && (b =? 0)) with false by lia. reflexivity.
Qed.
Lemma one_key s a : uinv s -> all_addr (fun x => x = a) s -> (length (live s) <= 1)%nat.
Proof.
  intros (N & H) HA. assert (forall i j, In i (live s) -> In j (live s) -> i = j) as Hu.
  { intros i j Hi Hj. unfold live in *. apply filter_In in Hi as (_ & Hi). apply filter_In in Hj as (_ & Hj).
    destruct (get_sess s i) as [u|] eqn:Eu; [|discriminate]. destruct (get_sess s j) as [v|] eqn:Ev; [|discriminate].
    assert (map_find (ukey a) (uv_map s) = Some i) as F1 by (apply map_find_of; [exact N|apply H; exists u; split; [exact Eu|rewrite (HA _ _ Eu); reflexivity]]).
    assert (map_find (ukey a) (uv_map s) = Some j) as F2 by (apply map_find_of; [exact N|apply H; exists v; split; [exact Ev|rewrite (HA _ _ Ev); reflexivity]]).
    congruence. }
  assert (NoDup (live s)) as Hn by (apply NoDup_filter, seq_NoDup).
  destruct (live s) as [|i [|j l]]; cbn; try lia. exfalso. inversion Hn as [|? ? Hx _]; subst. apply Hx. left. symmetry. apply Hu; cbn; auto.
Qed.
(** Example data. *)
Definition ex_nt : ntop := mknt (fun _ => str "4") (fun _ => str "6").
Definition ex_alice : list Z * Z := (str "192.0.2.7", 5000).
Definition ex_bob : list Z * Z := (str "198.51.100.9", 6000).
