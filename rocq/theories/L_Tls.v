(** Lemmas about TCP and TLS sockets. *)
From Verif Require Import Base M_IO M_Tls S_Tls.

(** Reading one flight. *)
Lemma loop_gen : forall {E} (g : engine E) (R : E -> list Z -> list Z -> Prop) (Q : E -> Prop) fl f h,
  (forall e r p d, R e r p -> (exists q, q <> [] /\ p ++ d ++ q = fl) -> exists e' r', hs_step g e (r ++ d) = (HsWant, e', r', []) /\ R e' r' (p ++ d)) ->
  (forall e r p d x, R e r p -> p ++ d = fl ++ x -> exists e', hs_step g e (r ++ d) = (h, e', x, f) /\ Q e') ->
  f <> [] -> h <> HsFail ->
  forall fuel e r p cs c1 x rest err sent i, R e r p -> p ++ concat cs ++ c1 = fl -> c1 <> [] -> Forall (fun d => d <> []) cs ->
  (x = [] \/ zlen (c1 ++ x) <= 1024) -> (length (concat cs ++ c1) < fuel)%nat ->
  exists e', Q e' /\ util_write_loop fuel g (mktls e r [] (mktr (cs ++ (c1 ++ x) :: rest) err) sent i) =
    (match h with HsDone => Ok tt | _ => Err ERROR_SSL_HANDSHAKE_CONTINUE end,
     mktls e' (match h with HsDone => x | _ => [] end) f (mktr rest err) sent i).
Proof.
  intros E g R Q fl f h Hmore Hfull Hf Hh. induction fuel as [|n IH]; intros e r p cs c1 x rest err sent i HR Heq Hc1 Hcs Hx Hlt; [lia|].
  destruct cs as [|c cs].
  - cbn [concat app] in *. cbn [util_write_loop tl_io]. unfold t_read. change (1024 <=? 0) with false. cbn [t_chunks t_err].
    destruct (zlen (c1 ++ x) <=? 1024) eqn:Hz.
    + cbn [tl_e tl_r tl_w tl_sent tl_init]. unfold do_handshake. cbn [tl_e tl_r tl_w tl_sent tl_init tl_io].
      destruct (Hfull e r p (c1 ++ x) x HR) as (e' & He & HQ); [rewrite app_assoc, Heq; reflexivity|]. rewrite He.
      exists e'. split; [exact HQ|]. destruct h; cbn; [reflexivity|destruct f; [congruence|reflexivity]|congruence].
    + apply Z.leb_gt in Hz. destruct Hx as [->|Hx]; [|lia]. rewrite app_nil_r in *.
      cbn [tl_e tl_r tl_w tl_sent tl_init]. unfold do_handshake. cbn [tl_e tl_r tl_w tl_sent tl_init tl_io].
      assert (Hd : drop 1024 c1 <> []).
      { intro H. pose proof (take_drop 1024 c1) as T. rewrite H, app_nil_r in T. assert (zlen (take 1024 c1) <= 1024) by (unfold zlen, take; pose proof (firstn_le_length (Z.to_nat 1024) c1); lia). rewrite T in H0. lia. }
      destruct (Hmore e r p (take 1024 c1) HR) as (e' & r' & He & HR').
      { exists (drop 1024 c1). split; [exact Hd|]. rewrite take_drop. exact Heq. }
      rewrite He. cbn [is_continue]. change (ERROR_SSL_HANDSHAKE_CONTINUE =? ERROR_SSL_HANDSHAKE_CONTINUE) with true. cbn [app tl_w].
      assert (Ht : (0 < length (take 1024 c1))%nat) by (unfold take; rewrite firstn_length; unfold zlen in Hz; lia).
      pose proof (take_drop 1024 c1) as T.
      destruct (IH e' r' (p ++ take 1024 c1) [] (drop 1024 c1) [] rest err sent i) as (e2 & HQ & H2); auto.
      * cbn [concat app]. rewrite <- app_assoc, T. exact Heq.
      * cbn [concat app]. apply (f_equal (@length Z)) in T. rewrite app_length in T. lia.
      * exists e2. split; [exact HQ|]. cbn [app] in H2. rewrite app_nil_r in H2. exact H2.
  - pose proof (Forall_inv Hcs) as Hc. pose proof (Forall_inv_tail Hcs) as Hcs'. cbn in Hc. cbn [concat app] in *.
    cbn [util_write_loop tl_io]. unfold t_read. change (1024 <=? 0) with false. cbn [t_chunks t_err].
    destruct (zlen c <=? 1024) eqn:Hz.
    + cbn [tl_e tl_r tl_w tl_sent tl_init]. unfold do_handshake. cbn [tl_e tl_r tl_w tl_sent tl_init tl_io].
      destruct (Hmore e r p c HR) as (e' & r' & He & HR').
      { exists (concat cs ++ c1). split; [destruct (concat cs); [exact Hc1|discriminate]|]. rewrite <- Heq, <- app_assoc. reflexivity. }
      rewrite He. cbn [is_continue]. change (ERROR_SSL_HANDSHAKE_CONTINUE =? ERROR_SSL_HANDSHAKE_CONTINUE) with true. cbn [app tl_w].
      destruct (IH e' r' (p ++ c) cs c1 x rest err sent i) as (e2 & HQ & H2); auto.
      * rewrite <- Heq, <- !app_assoc. reflexivity.
      * rewrite !app_length in *. destruct c; [congruence|cbn in *; lia].
      * exists e2. split; [exact HQ|exact H2].
    + apply Z.leb_gt in Hz. cbn [tl_e tl_r tl_w tl_sent tl_init]. unfold do_handshake. cbn [tl_e tl_r tl_w tl_sent tl_init tl_io].
      pose proof (take_drop 1024 c) as T.
      assert (Hl : length (take 1024 c) = Z.to_nat 1024) by (unfold take; rewrite firstn_length; unfold zlen in Hz; lia).
      assert (Hd : drop 1024 c <> []).
      { intro H. rewrite H, app_nil_r in T. rewrite T in Hl. unfold zlen in Hz. lia. }
      destruct (Hmore e r p (take 1024 c) HR) as (e' & r' & He & HR').
      { exists (drop 1024 c ++ concat cs ++ c1). split; [destruct (drop 1024 c); [congruence|discriminate]|].
        rewrite <- Heq. f_equal. rewrite app_assoc, T, <- app_assoc. reflexivity. }
      rewrite He. cbn [is_continue]. change (ERROR_SSL_HANDSHAKE_CONTINUE =? ERROR_SSL_HANDSHAKE_CONTINUE) with true. cbn [app tl_w].
      destruct (IH e' r' (p ++ take 1024 c) (drop 1024 c :: cs) c1 x rest err sent i) as (e2 & HQ & H2); auto.
      * cbn [concat]. rewrite <- Heq, <- !app_assoc. f_equal. rewrite app_assoc, T. reflexivity.
      * cbn [concat]. apply (f_equal (@length Z)) in T. rewrite !app_length in *. lia.
      * exists e2. split; [exact HQ|exact H2].
Qed.

(** A whole handshake: [x] is what comes right behind the client's last flight. *)
Lemma accept_run : forall {E} (g : engine E) R1 R2 Dn ch f1 ck f2, two_flights g R1 R2 Dn ch f1 ck f2 ->
  f1 <> [] -> f2 <> [] ->
  forall fuel e cs1 a1 cs2 a2 x rest err i, R1 e [] [] ->
  concat cs1 ++ a1 = ch -> a1 <> [] -> Forall (fun d => d <> []) cs1 ->
  concat cs2 ++ a2 = ck -> a2 <> [] -> Forall (fun d => d <> []) cs2 ->
  (x = [] \/ zlen (a2 ++ x) <= 1024) -> (length ch < fuel)%nat -> (length ck < fuel)%nat ->
  exists e', Dn e' /\ ssl_accept fuel g KwAll KwAll (Ok tt) (mktls e [] [] (mktr (cs1 ++ a1 :: cs2 ++ (a2 ++ x) :: rest) err) [] i)
    = (Ok tt, mktls e' [] [] (mktr rest err) (f1 ++ f2) i).
Proof.
  intros E g R1 R2 Dn ch f1 ck f2 T Hf1 Hf2 fuel e cs1 a1 cs2 a2 x rest err i HR E1 N1 F1 E2 N2 F2 Hx L1 L2.
  assert (Hch : ch <> []) by (rewrite <- E1; destruct (concat cs1); [exact N1|discriminate]).
  assert (Hck : ck <> []) by (rewrite <- E2; destruct (concat cs2); [exact N2|discriminate]).
  unfold ssl_accept, util_write at 1, do_handshake at 1. cbn [tl_e tl_r tl_w tl_io tl_sent tl_init].
  destruct (tf_more1 _ _ _ _ _ _ _ _ T e [] [] [] HR) as (e1 & r1 & H1 & R1'); [exists ch; split; [exact Hch|reflexivity]|].
  cbn [app] in H1. rewrite H1. cbn [is_continue app]. rewrite Z.eqb_refl.
  destruct (loop_gen g R1 (fun e => R2 e [] []) ch f1 HsWant (tf_more1 _ _ _ _ _ _ _ _ T) (tf_full1 _ _ _ _ _ _ _ _ T) Hf1 ltac:(discriminate)
    fuel e1 r1 [] cs1 a1 [] (cs2 ++ (a2 ++ x) :: rest) err [] i) as (e2 & HR2 & H2); auto; [rewrite E1; exact L1|].
  rewrite app_nil_r in H2. rewrite H2. cbn [goes_on is_continue negb]. rewrite Z.eqb_refl. cbn [negb].
  unfold util_read at 1, do_handshake at 1. cbn [tl_e tl_r tl_w tl_io tl_sent tl_init].
  destruct (tf_more2 _ _ _ _ _ _ _ _ T e2 [] [] [] HR2) as (e3 & r3 & H3 & R3 & _); [exists ck; split; [exact Hck|reflexivity]|].
  cbn [app] in H3. rewrite H3. cbn [is_continue]. rewrite Z.eqb_refl. rewrite app_nil_r. cbn [tl_w tl_e tl_r tl_io tl_sent tl_init].
  destruct f1 as [|b1 f1']; [congruence|]. cbn [tcp_write goes_on is_continue negb app]. rewrite Z.eqb_refl. cbn [negb].
  assert (r3 = []).
  { destruct (tf_more2 _ _ _ _ _ _ _ _ T e2 [] [] [] HR2) as (e3' & r3' & H3' & _ & K); [exists ck; split; [exact Hck|reflexivity]|].
    cbn [app] in H3'. rewrite H3 in H3'. injection H3' as <- <-. apply K. reflexivity. }
  subst r3. unfold util_write, do_handshake at 1. cbn [tl_e tl_r tl_w tl_io tl_sent tl_init].
  destruct (tf_more2 _ _ _ _ _ _ _ _ T e3 [] [] [] R3) as (e4 & r4 & H4 & R4 & _); [exists ck; split; [exact Hck|reflexivity]|].
  cbn [app] in H4. rewrite H4. cbn [is_continue app]. rewrite Z.eqb_refl.
  destruct (loop_gen g R2 Dn ck f2 HsDone) with (fuel := fuel) (e := e4) (r := r4) (p := @nil Z) (cs := cs2) (c1 := a2) (x := x) (rest := rest) (err := err) (sent := b1 :: f1') (i := i)
    as (e5 & HD & H5); auto; [| exact (tf_full2 _ _ _ _ _ _ _ _ T) | discriminate | rewrite E2; exact L2 |].
  { intros e0 r p d A B. destruct (tf_more2 _ _ _ _ _ _ _ _ T e0 r p d A B) as (e' & r' & X & Y & _). eauto. }
  rewrite H5. cbn [goes_on negb]. unfold util_read, do_handshake. cbn [tl_e tl_r tl_w tl_io tl_sent tl_init].
  destruct (tf_done _ _ _ _ _ _ _ _ T e5 x HD) as (e6 & H6 & D6). rewrite H6. rewrite app_nil_r. cbn [tl_w tl_e tl_r tl_io tl_sent tl_init].
  destruct f2 as [|b2 f2']; [congruence|]. cbn [tcp_write]. exists e6. split; [exact D6|reflexivity].
Qed.

(** accept keeps the mark of init. *)
Lemma do_handshake_init : forall {E} (g : engine E) s r s', do_handshake g s = (r, s') -> tl_init s' = tl_init s.
Proof. intros E g s r s' H. unfold do_handshake in H. destruct (hs_step g (tl_e s) (tl_r s)) as [[[h e] rest] out]. injection H as <- <-. reflexivity. Qed.
Lemma util_write_loop_init : forall {E} (g : engine E) fuel s r s', util_write_loop fuel g s = (r, s') -> tl_init s' = tl_init s.
Proof.
  intros E g. induction fuel as [|n IH]; intros s r s' H; cbn [util_write_loop] in H; [injection H as <- <-; reflexivity|].
  destruct (t_read (tl_io s) 1024) as [[d|c| |] io1]; try (injection H as <- <-; reflexivity).
  destruct (do_handshake g _) as [r2 s2] eqn:Hd in H. apply do_handshake_init in Hd. cbn in Hd.
  destruct (is_continue r2).
  - destruct (tl_w s2); [apply IH in H; congruence|injection H as <- <-; exact Hd].
  - injection H as <- <-. exact Hd.
Qed.
Lemma util_write_init : forall {E} (g : engine E) fuel s r s', util_write fuel g s = (r, s') -> tl_init s' = tl_init s.
Proof.
  intros E g fuel s r s' H. unfold util_write in H. destruct (do_handshake g s) as [r1 s1] eqn:Hd. apply do_handshake_init in Hd.
  destruct (is_continue r1); [apply util_write_loop_init in H; congruence|injection H as <- <-; exact Hd].
Qed.
Lemma util_read_init : forall {E} (g : engine E) k s r s', util_read g k s = (r, s') -> tl_init s' = tl_init s.
Proof.
  intros E g k s r s' H. unfold util_read in H. destruct (do_handshake g s) as [r1 s1] eqn:Hd. apply do_handshake_init in Hd.
  destruct (match r1 with Ok _ => true | _ => is_continue r1 end); [|injection H as <- <-; exact Hd].
  destruct (tl_w s1); [injection H as <- <-; exact Hd|].
  destruct (tcp_write _ k); injection H as <- <-; exact Hd.
Qed.
Lemma accept_init : forall {E} (g : engine E) fuel k1 k2 cert s r s', ssl_accept fuel g k1 k2 cert s = (r, s') -> tl_init s' = tl_init s.
Proof.
  intros E g fuel k1 k2 cert s r s' H. unfold ssl_accept in H. destruct cert; try (injection H as <- <-; reflexivity).
  destruct (util_write fuel g s) as [r1 s1] eqn:H1. apply util_write_init in H1. destruct (negb (goes_on r1)); [injection H as <- <-; congruence|].
  destruct (util_read g k1 s1) as [r2 s2] eqn:H2. apply util_read_init in H2. destruct (negb (goes_on r2)); [injection H as <- <-; congruence|].
  destruct (util_write fuel g s2) as [r3 s3] eqn:H3. apply util_write_init in H3. destruct (negb (goes_on r3)); [injection H as <- <-; congruence|].
  apply util_read_init in H. congruence.
Qed.

(** Reading. *)
Lemma t_read_bytes : forall io n r io1, 0 < n -> t_read io n = (r, io1) ->
  t_err io1 = t_err io /\ match r with Ok d => concat (t_chunks io) = d ++ concat (t_chunks io1) | Err _ => io1 = io | _ => False end.
Proof.
  intros io n r io1 Hn H. unfold t_read in H. replace (n <=? 0) with false in H by (symmetry; apply Z.leb_gt; lia).
  destruct (t_chunks io) as [|c cs] eqn:Hc; [injection H as <- <-; auto|].
  destruct (zlen c <=? n); injection H as <- <-; cbn [t_err t_chunks concat]; (split; [reflexivity|]); [reflexivity|].
  rewrite app_assoc, take_drop. reflexivity.
Qed.
Lemma ssl_read_ok : forall {E} (g : reader E) R dec, decrypts g R dec ->
  forall fuel e rb io n c q r e' rb' io', R e rb c q -> 0 < n -> ssl_read fuel g e rb io n = (r, (e', rb', io')) ->
  exists d, concat (t_chunks io) = d ++ concat (t_chunks io') /\
  exists p, R e' rb' (c ++ d) (q ++ p) /\ (r = Fuel \/ exists t, dec (c ++ d) = (q ++ p) ++ t) /\
  t_err io' = t_err io /\ (r = Err (t_err io) -> t_err io <> ERROR_SSL_READ -> dec (c ++ d) = q ++ p) /\
  match r with Ok x => x = p /\ 0 < zlen x <= n | UB => False | _ => p = [] end.
Proof.
  intros E g R dec D. induction fuel as [|f IH]; intros e rb io n c q r e' rb' io' HR Hn H; cbn [ssl_read] in H.
  - injection H as <- <- <- <-. exists []. split; [reflexivity|]. exists []. rewrite !app_nil_r. repeat split; auto; discriminate.
  - destruct (rd_step g e rb n) as [[res e1] rb1] eqn:Hs. pose proof (dc_step _ _ _ D _ _ _ _ _ _ _ _ HR Hn Hs) as K.
    destruct res as [d| |].
    + injection H as <- <- <- <-. destruct K as (K1 & K2 & K3). exists []. split; [reflexivity|]. exists d. rewrite app_nil_r. repeat split; auto; try discriminate; apply K1.
    + destruct K as (K1 & K2). destruct (t_read io n) as [r1 io1] eqn:Ht. apply t_read_bytes in Ht; [|exact Hn]. destruct Ht as (He & Ht).
      destruct r1 as [d|ec| |]; try contradiction.
      * apply (dc_fed _ _ _ D) with (d := d) in K2. apply (IH _ _ _ _ _ _ _ _ _ _ K2 Hn) in H.
        destruct H as (d2 & A & p & B1 & B2 & B4 & B5 & B3). exists (d ++ d2). split; [rewrite Ht, A, app_assoc; reflexivity|].
        exists p. rewrite app_assoc. rewrite He in B4, B5. auto.
      * subst io1. injection H as <- <- <- <-. exists []. split; [reflexivity|]. exists []. rewrite !app_nil_r. split; [exact K2|]. split; [right; exists []; rewrite app_nil_r; congruence|]. split; [reflexivity|]. split; [intros _ _; congruence|reflexivity].
    + injection H as <- <- <- <-. destruct K as (K1 & K2). exists []. split; [reflexivity|]. exists []. rewrite !app_nil_r.
      split; [exact K2|]. split; [right; exact K1|]. split; [reflexivity|]. split; [intros X Y; congruence|reflexivity].
Qed.
Lemma t_read_ne : forall io n d io1, 0 < n -> Forall (fun c => c <> []) (t_chunks io) -> t_read io n = (Ok d, io1) ->
  d <> [] /\ Forall (fun c => c <> []) (t_chunks io1).
Proof.
  intros io n d io1 Hn HF H. unfold t_read in H. replace (n <=? 0) with false in H by (symmetry; apply Z.leb_gt; lia).
  destruct (t_chunks io) as [|c cs] eqn:Hc; [discriminate|]. pose proof (Forall_inv HF) as Hne. cbn in Hne.
  destruct (zlen c <=? n) eqn:Hz; injection H as <- <-; cbn [t_chunks].
  - split; [exact Hne|exact (Forall_inv_tail HF)].
  - apply Z.leb_gt in Hz. split.
    + intro K. apply (f_equal (@zlen Z)) in K. rewrite zlen_take in K by lia. change (zlen (@nil Z)) with 0 in K. lia.
    + constructor; [|exact (Forall_inv_tail HF)]. intro K. apply (f_equal (@zlen Z)) in K. rewrite zlen_drop in K by lia. change (zlen (@nil Z)) with 0 in K. lia.
Qed.
Lemma ssl_read_fuel : forall {E} (g : reader E) fuel e rb io n r e' rb' io', 0 < n -> Forall (fun c => c <> []) (t_chunks io) ->
  (length (concat (t_chunks io)) < fuel)%nat -> ssl_read fuel g e rb io n = (r, (e', rb', io')) ->
  r <> Fuel /\ Forall (fun c => c <> []) (t_chunks io') /\ (length (concat (t_chunks io')) < fuel)%nat.
Proof.
  intros E g. induction fuel as [|f IH]; intros e rb io n r e' rb' io' Hn HF Hl H; cbn [ssl_read] in H; [lia|].
  destruct (rd_step g e rb n) as [[res e1] rb1]. destruct res as [d| |].
  - injection H as <- <- <- <-. repeat split; [discriminate|exact HF|exact Hl].
  - destruct (t_read io n) as [r1 io1] eqn:Ht. pose proof (t_read_bytes _ _ _ _ Hn Ht) as (_ & B). destruct r1 as [d|c| |]; try contradiction.
    + destruct (t_read_ne _ _ _ _ Hn HF Ht) as (Hd & HF1). assert (K : (length (concat (t_chunks io1)) < f)%nat).
      { rewrite B, app_length in Hl. destruct d; [congruence|cbn in Hl; lia]. }
      destruct (IH _ _ _ _ _ _ _ _ Hn HF1 K H) as (X & Y & W). repeat split; [exact X|exact Y|lia].
    + subst io1. injection H as <- <- <- <-. repeat split; [discriminate|exact HF|exact Hl].
  - injection H as <- <- <- <-. repeat split; [discriminate|exact HF|exact Hl].
Qed.
Lemma ssl_reads_ok : forall {E} (g : reader E) R dec, decrypts g R dec ->
  forall fuel sizes e rb io c q rs e' rb' io', R e rb c q -> (exists t, dec c = q ++ t) -> Forall (fun n => 0 < n) sizes ->
  Forall (fun c => c <> []) (t_chunks io) -> (length (concat (t_chunks io)) < fuel)%nat ->
  ssl_reads fuel g (e, rb, io) sizes = (rs, (e', rb', io')) ->
  exists used, concat (t_chunks io) = used ++ concat (t_chunks io') /\ (exists t, dec (c ++ used) = (q ++ concat (tls_oks rs)) ++ t) /\
  (rs <> [] -> last rs Fuel = Err (t_err io) -> t_err io <> ERROR_SSL_READ -> dec (c ++ used) = q ++ concat (tls_oks rs)) /\
  Forall2 (fun n r => match r with Ok d => 0 < zlen d <= n | Err _ => True | _ => False end) sizes rs.
Proof.
  intros E g R dec D fuel. induction sizes as [|n l IH]; intros e rb io c q rs e' rb' io' HR Ht Hs HF Hl H; cbn [ssl_reads] in H.
  - injection H as <- <- <- <-. exists []. cbn. rewrite !app_nil_r. repeat split; auto; congruence.
  - pose proof (Forall_inv Hs) as Hn. cbn in Hn. destruct (ssl_read fuel g e rb io n) as [r [[e1 rb1] io1]] eqn:H1.
    destruct (ssl_read_ok g R dec D _ _ _ _ _ _ _ _ _ _ _ HR Hn H1) as (d & A & p & B1 & B2 & B4 & B5 & B3).
    destruct (ssl_read_fuel g _ _ _ _ _ _ _ _ _ Hn HF Hl H1) as (F1 & F2 & F3).
    destruct B2 as [B2|B2]; [contradiction|].
    destruct (ssl_reads fuel g (e1, rb1, io1) l) as [rs2 [[e2 rb2] io2]] eqn:H2. injection H as <- <- <- <-.
    destruct (IH _ _ _ _ _ _ _ _ _ B1 B2 (Forall_inv_tail Hs) F2 F3 H2) as (u & U1 & (t & U2) & U4 & U3).
    assert (Hp : p ++ concat (tls_oks rs2) = concat (tls_oks (r :: rs2))).
    { destruct r; cbn [tls_oks concat]; [destruct B3 as (-> & _); reflexivity|rewrite B3; reflexivity|contradiction|rewrite B3; reflexivity]. }
    exists (d ++ u). split; [rewrite A, U1, app_assoc; reflexivity|]. split.
    + exists t. rewrite app_assoc, U2. f_equal. rewrite <- app_assoc. f_equal. exact Hp.
    + split.
      { intros _ HL Hne. rewrite app_assoc. destruct rs2 as [|r2 rs2].
        - cbn [last] in HL. destruct l as [|n2 l2]; [|inversion U3]. cbn [ssl_reads] in H2. injection H2 as <- <- <-.
          assert (u = []) by (apply (f_equal (@length Z)) in U1; rewrite app_length in U1; destruct u; [reflexivity|cbn in U1; lia]). subst u.
          rewrite app_nil_r. rewrite (B5 HL Hne). f_equal. rewrite <- Hp. cbn [tls_oks concat]. rewrite app_nil_r. reflexivity.
        - rewrite B4 in U4. rewrite (U4 ltac:(discriminate) HL Hne), <- app_assoc. f_equal. exact Hp. }
     constructor; [|exact U3]. destruct r; [exact (proj2 B3)|exact I|contradiction|congruence].
Qed.

(** Small engines for the examples: two-byte flights, and a cipher. *)
Definition toy : engine nat := mkeng (fun e r =>
  match e with
  | O => if (2 <=? length r)%nat then (HsWant, 1%nat, skipn 2 r, [3]) else (HsWant, O, r, [])
  | S O => if (2 <=? length r)%nat then (HsDone, 2%nat, skipn 2 r, [6]) else (HsWant, 1%nat, r, [])
  | _ => (HsDone, e, r, [])
  end).
Lemma toy_ok : two_flights toy (fun e r p => e = O /\ r = p) (fun e r p => e = 1%nat /\ r = p) (fun e => e = 2%nat) [1; 2] [3] [4; 5] [6].
Proof.
  constructor.
  - intros e r p d (-> & ->) (q & Hq & H). exists O, (p ++ d). cbn [hs_step toy]. apply (f_equal (@length Z)) in H. rewrite !app_length in H. cbn in H.
    destruct (2 <=? length (p ++ d))%nat eqn:K; [|auto]. apply Nat.leb_le in K. rewrite app_length in K. destruct q; [congruence|cbn in H; lia].
  - intros e r p d x (-> & ->) H. exists 1%nat. cbn [hs_step toy]. rewrite H. cbn. auto.
  - intros e r p d (-> & ->) (q & Hq & H). exists 1%nat, (p ++ d). cbn [hs_step toy]. apply (f_equal (@length Z)) in H. rewrite !app_length in H. cbn in H.
    destruct (2 <=? length (p ++ d))%nat eqn:K; [|auto]. apply Nat.leb_le in K. rewrite app_length in K. destruct q; [congruence|cbn in H; lia].
  - intros e r p d x (-> & ->) H. exists 2%nat. cbn [hs_step toy]. rewrite H. cbn. auto.
  - intros e x ->. exists 2%nat. cbn. auto.
Qed.
Definition toy_rd : reader unit := mkrdr (fun e r n =>
  match r with [] => (RdWant, e, r) | _ => (RdData (map (Z.lxor 1) (take n r)), e, drop n r) end).
Lemma toy_rd_ok : decrypts toy_rd (fun _ r c q => exists p, c = p ++ r /\ q = map (Z.lxor 1) p) (map (Z.lxor 1)).
Proof.
  constructor.
  - intros c d. rewrite map_app. eauto.
  - intros e r c q d (p & -> & ->). exists p. rewrite app_assoc. auto.
  - intros e r c q n res e' r' (p & -> & ->) Hn H. cbn [rd_step toy_rd] in H. destruct r as [|b r].
    + injection H as <- <- <-. rewrite app_nil_r. split; [reflexivity|]. exists p. rewrite app_nil_r. auto.
    + injection H as <- <- <-. rewrite <- map_app. split; [|split].
      * unfold zlen. rewrite map_length. fold (zlen (take n (b :: r))). rewrite zlen_take by lia. unfold zlen. cbn [length]. lia.
      * exists (map (Z.lxor 1) (drop n (b :: r))). rewrite <- map_app, <- app_assoc, take_drop. reflexivity.
      * exists (p ++ take n (b :: r)). rewrite <- app_assoc, take_drop. auto.
Qed.
