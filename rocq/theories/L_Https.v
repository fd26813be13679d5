(** Lemmas about reading through a TLS socket. *)
From Verif Require Import Base M_IO S_IO M_Text M_Http S_Http L_Http L_Http2 L_Http3 M_Tls S_Tls L_Tls M_Https S_Https.

Lemma t_read_res : forall t n, (exists d t1, t_read t n = (Ok d, t1)) \/ (exists c t1, t_read t n = (Err c, t1)).
Proof.
  intros t n. unfold t_read. destruct (n <=? 0); [eauto|]. destruct (t_chunks t) as [|c cs]; [eauto|]. destruct (zlen c <=? n); eauto.
Qed.
Lemma run_plain_bind : forall {A B} (p : prog A) (f : A -> prog B) t,
  run_plain (pbind p f) t = match run_plain p t with (Ok a, t1) => run_plain (f a) t1 | (Err c, t1) => (Err c, t1) | (UB, t1) => (UB, t1) | (Fuel, t1) => (Fuel, t1) end.
Proof.
  intros A B p f. induction p as [a|n k IH ke IHe]; intros t; cbn [pbind run_plain]; [reflexivity|].
  destruct (t_read_res t n) as [(d & t1 & ->)|(c & t1 & ->)]; auto.
Qed.
(** The programs are the functions of M_IO.v and M_Http.v. *)
Lemma rf_prog_run : forall fuel size acc t, run_plain (rf_prog fuel size acc) t = (let '(r, t1) := read_fully_loop fuel t size acc in (Ok r, t1)).
Proof.
  induction fuel as [|f IH]; intros size acc t; cbn [rf_prog run_plain read_fully_loop]; [reflexivity|].
  destruct (t_read_res t (size - zlen acc)) as [(d & t1 & ->)|(c & t1 & ->)]; cbn [run_plain]; [|reflexivity].
  destruct (zlen (acc ++ d) <? size); [apply IH|reflexivity].
Qed.
Lemma read_fully_prog_run : forall size t, run_plain (read_fully_prog size) t = (let '(r, t1) := read_fully t size in (Ok r, t1)).
Proof. intros. apply rf_prog_run. Qed.
Lemma hl_prog_run : forall fuel max state buf t, run_plain (hl_prog fuel max state buf) t = (let '(r, t1) := head_loop fuel t max state buf in (Ok r, t1)).
Proof.
  induction fuel as [|f IH]; intros max state buf t; cbn [hl_prog head_loop]; [reflexivity|].
  destruct (max - zlen buf <? state); [reflexivity|]. rewrite run_plain_bind, read_fully_prog_run.
  destruct (read_fully t state) as [r t1]. destruct r as [d|c| |]; try reflexivity.
  destruct (head_next (buf ++ d)) as [o|c| |]; try reflexivity. destruct o as [n|]; [apply IH|reflexivity].
Qed.
Lemma head_prog_run : forall max t, run_plain (head_prog max) t = (let '(r, t1) := read_head t max in (Ok r, t1)).
Proof. intros. apply hl_prog_run. Qed.
Lemma sl_prog_run : forall fuel acc t, run_plain (sl_prog fuel acc) t = (let '(r, t1) := size_line fuel t acc in (Ok r, t1)).
Proof.
  induction fuel as [|f IH]; intros acc t; cbn [sl_prog run_plain size_line]; [reflexivity|].
  destruct (t_read_res t 1) as [(d & t1 & ->)|(c & t1 & ->)]; cbn [run_plain]; [|reflexivity]. cbv zeta.
  match goal with |- context [if ?b then _ else _] => destruct b end; [reflexivity|apply IH].
Qed.
Lemma rcl_prog_run : forall b t, run_plain (rcl_prog b) t = (let '(r, b1, t1) := read_chunk_len b t in (Ok (r, b1), t1)).
Proof.
  intros b t. unfold rcl_prog, read_chunk_len. rewrite run_plain_bind, sl_prog_run. destruct (size_line 34 t []) as [r t1].
  destruct r as [l|c| |]; try reflexivity. destruct (size_of_line l); reflexivity.
Qed.
Lemma ct_prog_run : forall b d t, run_plain (ct_prog b d) t = (let '(r, b1, t1) := chunk_tail b t d in (Ok (r, b1), t1)).
Proof.
  intros b d t. unfold ct_prog, chunk_tail. destruct (hb_left b =? 0); [|reflexivity]. rewrite run_plain_bind, read_fully_prog_run.
  destruct (read_fully t 2) as [r t1]. destruct r as [l|c| |]; try reflexivity. destruct (eqb_list l crlf); reflexivity.
Qed.
Lemma rqd_prog_run : forall b n t, run_plain (rqd_prog b n) t = (let '(r, b1, t1) := rq_data b t n in (Ok (r, b1), t1)).
Proof.
  intros b n t. unfold rqd_prog, rq_data. cbv zeta. destruct (hb_size b =? 0); [apply ct_prog_run|]. cbn [run_plain].
  destruct (t_read_res t (Z.min (hb_left b) n)) as [(d & t1 & ->)|(c & t1 & ->)]; [apply ct_prog_run|reflexivity].
Qed.
Lemma rq_prog_run : forall b n t, run_plain (rq_prog b n) t = (let '(r, b1, t1) := rq_read b t n in (Ok (r, b1), t1)).
Proof.
  intros b n t. unfold rq_prog, rq_read, hb_read. destruct (hb_eof b); [reflexivity|]. destruct (hb_chunked b) eqn:Hc.
  - unfold rqc_prog, read_chunked. destruct (hb_left b =? 0); [|apply rqd_prog_run]. rewrite run_plain_bind, rcl_prog_run.
    destruct (read_chunk_len b t) as [[r b1] t1]. destruct r; try reflexivity. apply rqd_prog_run.
  - cbv zeta. cbn [run_plain]. match goal with |- context [t_read t ?m] => destruct (t_read_res t m) as [(d & t1 & ->)|(c & t1 & ->)] end; reflexivity.
Qed.
Lemma body_prog_run : forall sizes b t, run_plain (body_prog b sizes) t = (let '(ds, e, b1, t1) := hb_run rq_data b t sizes in (Ok (ds, e, b1), t1)).
Proof.
  induction sizes as [|n ns IH]; intros b t; cbn [body_prog hb_run]; [reflexivity|]. rewrite run_plain_bind, rq_prog_run.
  unfold rq_read. destruct (hb_read rq_data b t n) as [[r b1] t1]. destruct r as [d|c| |]; try reflexivity.
  rewrite run_plain_bind, IH. destruct (hb_run rq_data b1 t1 ns) as [[[ds e] b2] t2]. reflexivity.
Qed.

(** Values a program can return: [Q] after reads that went well, [QE] at the
    first error. *)
Inductive okp {A} (Q : A -> Prop) (QE : Z -> A -> Prop) : prog A -> Prop :=
| okp_ret a : Q a -> okp Q QE (PRet a)
| okp_read n k ke : 0 < n -> (forall d, 0 < zlen d <= n -> okp Q QE (k d)) -> (forall c, exists a, ke c = PRet a /\ QE c a) -> okp Q QE (PRead n k ke).
Lemma okp_reads : forall {A} Q QE (p : prog A), okp Q QE p -> reads_ok p.
Proof. intros A Q QE p H. induction H as [a Ha|n k ke Hn Hk IH He]; [constructor|]. constructor; [exact Hn|exact IH|]. intros c. destruct (He c) as (a & Ha & _). eauto. Qed.
Lemma okp_bind : forall {A B} (Q : A -> Prop) (QE : Z -> A -> Prop) (Q' : B -> Prop) (QE' : Z -> B -> Prop) p f, okp Q QE p ->
  (forall a, Q a -> okp Q' QE' (f a)) -> (forall c a, QE c a -> exists b, f a = PRet b /\ QE' c b) -> okp Q' QE' (pbind p f).
Proof.
  intros A B Q QE Q' QE' p f H Hf He. induction H as [a Ha|n k ke Hn Hk IH Hke]; cbn [pbind]; [auto|].
  constructor; [exact Hn|exact IH|]. intros c. destruct (Hke c) as (a & -> & Ha). cbn [pbind]. apply (He c), Ha.
Qed.
Definition isE {A} (c : Z) (r : res A) : Prop := r = Err c.
Definition isF {A} (c : Z) (r : res A) : Prop := exists c', r = Err c'.
Lemma rf_okp : forall fuel size acc, (Z.to_nat (size - zlen acc) < fuel)%nat -> zlen acc < size ->
  okp (fun r => exists d, r = Ok d /\ zlen d = size) isE (rf_prog fuel size acc).
Proof.
  induction fuel as [|f IH]; intros size acc Hf Hs; [lia|]. cbn [rf_prog]. constructor; [lia| |].
  - intros d Hd. rewrite zlen_app. destruct (Z.ltb_spec (zlen acc + zlen d) size) as [K|K].
    + apply IH; rewrite zlen_app; lia.
    + constructor. exists (acc ++ d). split; [reflexivity|]. rewrite zlen_app. lia.
  - intros c. exists (Err c). split; reflexivity.
Qed.
Lemma read_fully_okp : forall size, 0 < size -> okp (fun r => exists d, r = Ok d /\ zlen d = size) isE (read_fully_prog size).
Proof. intros size H. apply rf_okp; change (zlen (@nil Z)) with 0; lia. Qed.
Lemma head_next_pos : forall buf n, head_next buf = Ok (Some n) -> 0 < n.
Proof.
  intros buf n H. unfold head_next in H. destruct (back buf 0) as [c| | |]; cbn [bind] in H; try discriminate.
  destruct (negb (c =? LF) && negb (c =? CR)); [injection H as <-; lia|]. destruct (c =? CR).
  - destruct (back buf 1) as [c1| | |]; cbn [bind] in H; try discriminate. destruct (c1 =? LF); [|injection H as <-; lia].
    destruct (back buf 2) as [c2| | |]; cbn [bind] in H; try discriminate. injection H as <-. destruct (c2 =? CR); lia.
  - destruct (back buf 2) as [c2| | |]; cbn [bind] in H; try discriminate. destruct (negb (c2 =? LF)); [|discriminate].
    destruct (back buf 3) as [c3| | |]; cbn [bind] in H; try discriminate. destruct (negb (c3 =? CR)); [|discriminate]. injection H as <-; lia.
Qed.
Lemma hl_okp : forall fuel max state buf, 0 < state -> okp (fun _ => True) isF (hl_prog fuel max state buf).
Proof.
  induction fuel as [|f IH]; intros max state buf Hs; cbn [hl_prog]; [constructor; exact I|].
  destruct (max - zlen buf <? state); [constructor; exact I|]. eapply okp_bind; [apply read_fully_okp, Hs| |].
  - intros r (d & -> & _). destruct (head_next (buf ++ d)) as [o|c| |] eqn:E; try (constructor; exact I).
    destruct o as [n|]; [apply IH, (head_next_pos _ _ E)|constructor; exact I].
  - intros c r ->. eexists. split; [reflexivity|]. eexists. reflexivity.
Qed.
Lemma head_okp : forall max, okp (fun _ => True) isF (head_prog max).
Proof. intros. apply hl_okp. lia. Qed.
(** The state of a body reader between reads. *)
Definition binv (b : hbody) : Prop :=
  hb_eof b = true \/ (hb_chunked b = true /\ 0 <= hb_left b < 2 ^ 64) \/
  (hb_chunked b = false /\ (hb_cl b < 0 \/ 0 <= hb_nread b < hb_cl b /\ hb_cl b < 2 ^ 31)).
Definition rok (n : Z) (x : res (list Z) * hbody) : Prop :=
  match x with (Ok d, b) => (0 < zlen d <= n /\ binv b) \/ (d = [] /\ hb_eof b = true) | _ => True end.
Lemma rok_binv : forall n d b, rok n (Ok d, b) -> binv b.
Proof. intros n d b [(_ & H)|(_ & H)]; [exact H|left; exact H]. Qed.
Definition rerr {A} (c : Z) (x : res A * hbody) : Prop := fst x = Err c.
Lemma sl_okp : forall fuel acc, okp (fun _ => True) isE (sl_prog fuel acc).
Proof.
  induction fuel as [|f IH]; intros acc; cbn [sl_prog]; [constructor; exact I|]. constructor; [lia| |].
  - intros d _. match goal with |- context [if ?b then _ else _] => destruct b end; [constructor; exact I|apply IH].
  - intros c. eexists. split; reflexivity.
Qed.
Lemma rcl_okp : forall b, okp (fun x => match x with (Ok _, b1) => exists n, 0 <= n < 2 ^ 64 /\ b1 = mkhb (hb_chunked b) (hb_cl b) (hb_eof b) (hb_nread b) n n | _ => True end) rerr (rcl_prog b).
Proof.
  intros b. unfold rcl_prog. eapply okp_bind; [apply sl_okp| |].
  - intros r _. destruct r as [l|c| |]; try (constructor; exact I). destruct (size_of_line l) as [n|c| |] eqn:E; try (constructor; exact I).
    constructor. exists n. split; [|reflexivity]. assert (Hl : 0 < zlen l).
    { destruct l; [discriminate E|]. rewrite zlen_cons. pose proof (zlen_nonneg l). lia. }
    destruct (size_of_line_any l Hl) as [(m & Hm & K)|(e & K)]; [|congruence]. rewrite Hm in E. injection E as <-. exact K.
  - intros c r ->. eexists. split; reflexivity.
Qed.
Lemma ct_okp : forall n b d, hb_chunked b = true -> 0 <= hb_left b < 2 ^ 64 -> 0 < zlen d <= n \/ d = [] /\ hb_size b = 0 -> okp (rok n) rerr (ct_prog b d).
Proof.
  intros n b d Hc Hl Hd. unfold ct_prog. cbv zeta. assert (K : rok n (Ok d, if hb_size b =? 0 then hb_set_eof b else b)).
  { destruct Hd as [Hd|(-> & Hd)]; [left; split; [exact Hd|destruct (hb_size b =? 0); [left; reflexivity|right; left; auto]]|right; rewrite Hd; split; reflexivity]. }
  destruct (hb_left b =? 0); [|constructor; exact K]. eapply okp_bind; [apply read_fully_okp; lia| |].
  - intros r (tl & -> & _). constructor. destruct (eqb_list tl crlf); [exact K|exact I].
  - intros c r ->. eexists. split; reflexivity.
Qed.
Lemma rqd_okp : forall b n, hb_chunked b = true -> 0 <= hb_left b < 2 ^ 64 -> (hb_left b = 0 -> hb_size b = 0) -> 0 < n -> okp (rok n) rerr (rqd_prog b n).
Proof.
  intros b n Hc Hl H0 Hn. unfold rqd_prog. destruct (Z.eqb_spec (hb_size b) 0) as [K|K]; [apply ct_okp; auto|]. constructor; [lia| |].
  - intros d Hd. apply ct_okp; [exact Hc| |left; lia]. cbn [hb_left hb_set_left]. unfold u64. apply Z.mod_pos_bound. lia.
  - intros c. eexists. split; reflexivity.
Qed.
Lemma rq_okp : forall b n, binv b -> 0 < n -> okp (rok n) rerr (rq_prog b n).
Proof.
  intros b n Hb Hn. unfold rq_prog. destruct (hb_eof b) eqn:He; [constructor; exact I|]. destruct Hb as [Hb|[(Hc & Hl)|(Hc & Hb)]]; [congruence| |]; rewrite Hc.
  - unfold rqc_prog. destruct (Z.eqb_spec (hb_left b) 0) as [K|K]; [|apply rqd_okp; [exact Hc|exact Hl|lia|exact Hn]].
    eapply okp_bind; [apply rcl_okp| |].
    + intros [r b1] H. destruct r as [u|c| |]; try (constructor; exact I). destruct H as (m & Hm & ->). apply rqd_okp; cbn; auto.
    + intros c [r b1] H. unfold rerr in H. cbn in H. subst r. eexists. split; reflexivity.
  - cbv zeta. assert (Hpos : 0 < (if 0 <=? hb_cl b then Z.min (u64 (hb_cl b - hb_nread b)) n else n)).
    { destruct (Z.leb_spec 0 (hb_cl b)) as [K|K]; [|exact Hn]. unfold u64. rewrite Z.mod_small by lia. lia. }
    constructor; [exact Hpos| |].
    + intros d Hd. constructor. left. split; [destruct (Z.leb_spec 0 (hb_cl b)); lia|]. unfold binv. cbn [hb_eof hb_chunked hb_cl hb_nread hb_left]. destruct (Z.leb_spec 0 (hb_cl b)) as [K|K]; [|right; right; split; [reflexivity|left; lia]].
      destruct Hb as [Hb|Hb]; [lia|]. unfold u64. rewrite Z.mod_small by lia. destruct (Z.leb_spec (hb_cl b) (hb_nread b + zlen d)) as [K2|K2]; [left; reflexivity|right; right; split; [reflexivity|right; lia]].
    + intros c. eexists. split; reflexivity.
Qed.
Lemma body_okp : forall sizes b, binv b -> Forall (fun n => 0 < n) sizes -> okp (fun _ => True) (fun _ _ => True) (body_prog b sizes).
Proof.
  induction sizes as [|n ns IH]; intros b Hb Hs; cbn [body_prog]; [constructor; exact I|].
  eapply okp_bind; [apply rq_okp; [exact Hb|exact (Forall_inv Hs)]| |].
  - intros [r b1] H. destruct r as [d|c| |]; try (constructor; exact I). eapply okp_bind; [apply IH; [exact (rok_binv _ _ _ H)|exact (Forall_inv_tail Hs)]| |].
    + intros [[ds e] b2] _. constructor. exact I.
    + intros c [[ds e] b2] _. eexists. split; [reflexivity|exact I].
  - intros c [r b1] H. unfold rerr in H. cbn in H. subst r. eexists. split; [reflexivity|exact I].
Qed.
Lemma request_okp : forall framing sizes, Forall (fun n => 0 < n) sizes -> (forall h, binv (hb_new (fst (framing h)) (snd (framing h)))) ->
  reads_ok (request_prog framing sizes).
Proof.
  intros framing sizes Hs Hf. apply (okp_reads (fun _ => True) (fun _ _ => True)). unfold request_prog. eapply okp_bind; [apply head_okp| |].
  - intros r _. destruct r as [h|c| |]; try (constructor; exact I). specialize (Hf h). destruct (framing h) as [ch cl]. eapply okp_bind; [apply body_okp; [exact Hf|exact Hs]| |].
    + intros [[ds e] b2] _. constructor. exact I.
    + intros c [[ds e] b2] _. eexists. split; [reflexivity|exact I].
  - intros c0 r (c & ->). eexists. split; [reflexivity|exact I].
Qed.

(** A read over TLS that fails. *)
Lemma ssl_read_err : forall {E} (g : reader E) R dec, decrypts g R dec ->
  forall fuel e rb io n c q ec st', R e rb c q -> 0 < n -> ssl_read fuel g e rb io n = (Err ec, st') ->
  (ec = t_err io /\ dec (c ++ concat (t_chunks io)) = q) \/ (ec = ERROR_SSL_READ /\ lib_fails g).
Proof.
  intros E g R dec D. induction fuel as [|f IH]; intros e rb io n c q ec st' HR Hn H; cbn [ssl_read] in H; [discriminate|].
  destruct (rd_step g e rb n) as [[r e1] rb1] eqn:Hs. pose proof (dc_step _ _ _ D _ _ _ _ _ _ _ _ HR Hn Hs) as K. destruct r as [d| |].
  - discriminate.
  - destruct K as (K1 & K2). destruct (t_read io n) as [r1 io1] eqn:Ht. pose proof (t_read_bytes _ _ _ _ Hn Ht) as (B1 & B2). destruct r1 as [d|c1| |]; try contradiction.
    + apply (dc_fed _ _ _ D) with (d := d) in K2. destruct (IH _ _ _ _ _ _ _ _ K2 Hn H) as [(X & Y)|X]; [left|right; exact X].
      rewrite B2, app_assoc. split; [congruence|exact Y].
    + injection H as -> <-. subst io1. left. unfold t_read in Ht. replace (n <=? 0) with false in Ht by (symmetry; apply Z.leb_gt; lia).
      destruct (t_chunks io) as [|x xs] eqn:Hx; [|destruct (zlen x <=? n); discriminate]. injection Ht as <-. split; [reflexivity|]. cbn. rewrite app_nil_r. congruence.
  - injection H as <- <-. right. split; [reflexivity|]. exists e, rb, n, e1, rb1. exact Hs.
Qed.
Lemma run_tls_plain : forall {E A} (g : reader E) R dec, decrypts g R dec -> forall fuel (p : prog A), reads_ok p ->
  forall e rb io c q x st', R e rb c q -> (exists t, dec c = q ++ t) -> Forall (fun c => c <> []) (t_chunks io) -> (length (concat (t_chunks io)) < fuel)%nat ->
  run_tls fuel g p (e, rb, io) = (x, st') ->
  exists cs err, nonempty_chunks cs /\ fst (run_plain p (mktr cs err)) = x /\
    ((err = t_err io /\ dec (c ++ concat (t_chunks io)) = q ++ concat cs) \/
     (err = ERROR_SSL_READ /\ lib_fails g /\ exists t, dec (c ++ concat (t_chunks io)) = (q ++ concat cs) ++ t)).
Proof.
  intros E A g R dec D fuel p Hp. induction Hp as [a|n k ke Hn Hk IH Hke]; intros e rb io c q x st' HR (t & Ht) HF Hl H; cbn [run_tls] in H.
  - injection H as <- <-. destruct (dc_mono _ _ _ D c (concat (t_chunks io))) as (q2 & Hq).
    exists (match t ++ q2 with [] => [] | _ => [t ++ q2] end), (t_err io). split; [|split; [reflexivity|left; split; [reflexivity|]]].
    + destruct (t ++ q2) eqn:Y; constructor; [discriminate|constructor].
    + rewrite Hq, Ht, <- app_assoc. f_equal. destruct (t ++ q2) eqn:Y; [reflexivity|]. cbn [concat]. rewrite app_nil_r. reflexivity.
  - destruct (ssl_read fuel g e rb io n) as [r [[e1 rb1] io1]] eqn:H1.
    destruct (ssl_read_ok g R dec D _ _ _ _ _ _ _ _ _ _ _ HR Hn H1) as (d & X1 & y & X2 & X3 & X4 & _ & X5).
    destruct (ssl_read_fuel g _ _ _ _ _ _ _ _ _ Hn HF Hl H1) as (F1 & F2 & F3). destruct X3 as [X3|X3]; [contradiction|].
    destruct r as [z|ec| |]; try contradiction.
    + destruct X5 as (-> & X5). destruct (IH y X5 _ _ _ _ _ _ _ X2 X3 F2 F3 H) as (cs & err & G1 & G2 & G3).
      exists (y :: cs), err. split; [constructor; [intros ->; change (zlen (@nil Z)) with 0 in X5; lia|exact G1]|]. split.
      { cbn [run_plain]. unfold t_read. cbn [t_chunks t_err]. replace (n <=? 0) with false by (symmetry; apply Z.leb_gt; lia).
        replace (zlen y <=? n) with true by (symmetry; apply Z.leb_le; lia). exact G2. }
      rewrite X1, app_assoc. cbn [concat]. rewrite app_assoc. rewrite X4 in G3. exact G3.
    + destruct (Hke ec) as (a & Ha). rewrite Ha in H. cbn [run_tls] in H. injection H as <- <-.
      exists [], ec. split; [constructor|]. split.
      { cbn [run_plain]. unfold t_read. cbn [t_chunks t_err]. replace (n <=? 0) with false by (symmetry; apply Z.leb_gt; lia). rewrite Ha. reflexivity. }
      cbn [concat]. rewrite app_nil_r. destruct (ssl_read_err g R dec D _ _ _ _ _ _ _ _ _ HR Hn H1) as [(Y1 & Y2)|(Y1 & Y2)]; [left; auto|right; split; [exact Y1|split; [exact Y2|]]].
      destruct X3 as (t2 & X3). rewrite X1, app_assoc. destruct (dc_mono _ _ _ D (c ++ d) (concat (t_chunks io1))) as (q2 & Hq). rewrite Hq, X3, X5, app_nil_r, <- app_assoc. eauto.
Qed.
Lemma run_tls_bind : forall {E A B} (g : reader E) fuel (p : prog A) (f : A -> prog B) st,
  run_tls fuel g (pbind p f) st = match run_tls fuel g p st with (Ok a, s1) => run_tls fuel g (f a) s1 | (Err c, s1) => (Err c, s1) | (UB, s1) => (UB, s1) | (Fuel, s1) => (Fuel, s1) end.
Proof.
  intros E A B g fuel p f. induction p as [a|n k IH ke IHe]; intros [[e rb] io]; cbn [pbind run_tls]; [reflexivity|].
  destruct (ssl_read fuel g e rb io n) as [r st1]. destruct r; auto.
Qed.
(** Only what the library says of the head that is read matters. *)
Lemma request_prog_head : forall {E} (g : reader E) fuel fr fr' sizes h st st1, run_tls fuel g (head_prog MAX_HEADER) st = (Ok (Ok h), st1) -> fr h = fr' h ->
  run_tls fuel g (request_prog fr sizes) st = run_tls fuel g (request_prog fr' sizes) st.
Proof. intros E g fuel fr fr' sizes h st st1 H Hf. unfold request_prog. rewrite !run_tls_bind, H, Hf. reflexivity. Qed.
(** A small library for the examples: handshake and cipher on one state. *)
Definition toy_rd2 : reader nat := mkrdr (fun e r n => let '(x, _, r') := rd_step toy_rd tt r n in (x, e, r')).
Lemma toy_rd2_ok : decrypts toy_rd2 (fun _ r c q => exists p, c = p ++ r /\ q = map (Z.lxor 1) p) (map (Z.lxor 1)).
Proof.
  destruct toy_rd_ok as [A B C]. constructor; [exact A|intros e; exact (B tt)|].
  intros e r c q n res e' r' HR Hn H. cbn [rd_step toy_rd2] in H. destruct (rd_step toy_rd tt r n) as [[x u] y] eqn:K. injection H as <- <- <-.
  exact (C tt r c q n x u y HR Hn K).
Qed.
Lemma toy_rd2_never_fails : ~ lib_fails toy_rd2.
Proof. intros (e & r & n & e' & r' & H). cbn in H. destruct r; discriminate. Qed.
