(** Lemmas about files. *)
From Verif Require Import Base M_IO S_IO M_Packet M_Http M_Tls M_Https S_Https L_Https M_Upload S_Upload L_Upload M_Flv S_Flv L_Flv M_Conf M_File.

(** A file between calls of read, and the connection that brings the same. *)
Definition at_end (f : fstm) : Prop := f_eof f = true /\ f_left f = [].
Definition f_ok (f : fstm) : Prop := f_good f = true \/ at_end f.
Definition conn_of (f : fstm) : transport := mktr (match f_left f with [] => [] | l => [l] end) ERROR_IO_EOF.
Lemma good_bits : forall f, f_good f = true -> f_eof f = false /\ f_fail f = false /\ f_bad f = false.
Proof. intros f H. unfold f_good in H. destruct (f_eof f), (f_fail f), (f_bad f); try discriminate; auto. Qed.
Lemma f_read_good : forall f n, f_good f = true -> 0 < n ->
  f_read f n = (Ok (take n (f_left f)), mkfs (drop n (f_left f)) (zlen (f_left f) <? n) (zlen (f_left f) <? n) false (f_out f)).
Proof.
  intros f n G Hn. destruct (good_bits _ G) as (A & B & C). unfold f_read. rewrite A, B, C. cbn [orb]. unfold is_read. rewrite G. cbv zeta. rewrite C.
  pose proof (zlen_nonneg (f_left f)). replace (zlen (take n (f_left f)) <? n) with (zlen (f_left f) <? n); [reflexivity|].
  destruct (Z.ltb_spec (zlen (f_left f)) n) as [L|L].
  - rewrite take_all by lia. symmetry. apply Z.ltb_lt. lia.
  - rewrite zlen_take by lia. symmetry. apply Z.ltb_ge. lia.
Qed.
Lemma f_ok_step : forall f n d f1, f_good f = true -> 0 < n -> f_read f n = (Ok d, f1) -> f_ok f1.
Proof.
  intros f n d f1 G Hn H. rewrite f_read_good in H by assumption. injection H as <- <-. destruct (Z.ltb_spec (zlen (f_left f)) n) as [L|L].
  - right. split; [reflexivity|]. cbn [f_left]. apply drop_all. lia.
  - left. reflexivity.
Qed.
Lemma f_read_end : forall f n, at_end f -> f_read f n = (Err ERROR_IO_EOF, f).
Proof. intros f n (A & _). unfold f_read. rewrite A. reflexivity. Qed.

Lemma run_file_plain : forall {A} (p : prog A), reads_body p -> forall f, f_ok f -> fst (run_file p f) = fst (run_plain p (conn_of f)).
Proof.
  intros A p H. induction H as [a|n k ke Hn Hk IH He (n' & k' & ke' & E & Hn' & Hke')]; intros f Hf; [reflexivity|].
  cbn [run_file run_plain]. destruct Hf as [G|Hend].
  - rewrite f_read_good by assumption. destruct (f_left f) as [|c l] eqn:EL.
    + (* nothing left, but the end has not been met *)
      unfold conn_of. rewrite EL. unfold t_read. replace (n <=? 0) with false by lia. cbn [t_chunks t_err].
      replace (take n (@nil Z)) with (@nil Z) by (unfold take; rewrite firstn_nil; reflexivity).
      replace (drop n (@nil Z)) with (@nil Z) by (unfold drop; rewrite skipn_nil; reflexivity).
      replace (zlen (@nil Z) <? n) with true by (symmetry; apply Z.ltb_lt; exact Hn). rewrite E. cbn [run_file]. unfold f_read at 1. cbn [f_eof]. rewrite Hke'.
      destruct (He ERROR_IO_EOF) as (a & ->). reflexivity.
    + assert (HL : 0 < zlen (c :: l)) by (rewrite zlen_cons; pose proof (zlen_nonneg l); lia).
      unfold conn_of. rewrite EL. unfold t_read. replace (n <=? 0) with false by lia. cbn [t_chunks t_err].
      destruct (Z.leb_spec (zlen (c :: l)) n) as [L|L].
      * rewrite take_all, drop_all by lia. rewrite IH; [reflexivity|lia|]. destruct (Z.ltb_spec (zlen (c :: l)) n); [right; split; reflexivity|left; reflexivity].
      * replace (zlen (c :: l) <? n) with false by lia. assert (Hd : 0 < zlen (drop n (c :: l))) by (rewrite zlen_drop by lia; lia).
        rewrite IH; [|rewrite zlen_take by lia; lia|left; reflexivity]. unfold conn_of. cbn [f_left]. destruct (drop n (c :: l)) eqn:ED; [change (zlen (@nil Z)) with 0 in Hd; lia|reflexivity].
  - rewrite f_read_end by exact Hend. destruct Hend as (_ & EL). unfold conn_of. rewrite EL. unfold t_read. replace (n <=? 0) with false by lia. cbn [t_chunks t_err].
    destruct (He ERROR_IO_EOF) as (a & ->). reflexivity.
Qed.
Lemma run_file_bind : forall {A B} (p : prog A) (g : A -> prog B) f,
  run_file (pbind p g) f = match run_file p f with
    | (Ok a, f1) => run_file (g a) f1 | (Err c, f1) => (Err c, f1) | (UB, f1) => (UB, f1) | (Fuel, f1) => (Fuel, f1) end.
Proof.
  intros A B p g. induction p as [a|n k IH ke IHe]; intros f; cbn [pbind run_file]; [reflexivity|].
  destruct (f_read f n) as [r f1]. destruct r as [d|c| |]; [apply IH|apply IHe|reflexivity|reflexivity].
Qed.

(** Reads in order. *)
Fixpoint oks (l : list (res (list Z))) : list Z :=
  match l with Ok d :: r => d ++ oks r | _ => [] end.
Lemma f_reads_end : forall sizes f, at_end f -> f_reads f sizes = map (fun _ => Err ERROR_IO_EOF) sizes.
Proof. induction sizes as [|n ns IH]; intros f H; cbn [f_reads map]; [reflexivity|]. rewrite f_read_end by exact H. rewrite IH by exact H. reflexivity. Qed.

(** Lines. *)
Lemma upto_lf_lines : forall l acc, lines_of acc l =
  match upto_lf acc l with (line, Some r) => line :: lines_of [] r | (line, None) => match line with [] => [] | _ => [line] end end.
Proof.
  induction l as [|c l IH]; intros acc; cbn [lines_of upto_lf]; [reflexivity|]. change LF with 10. destruct (c =? 10); [reflexivity|]. apply IH.
Qed.
Lemma upto_lf_len : forall l acc line r, upto_lf acc l = (line, Some r) -> (length r < length l)%nat.
Proof.
  induction l as [|c l IH]; intros acc line r H; cbn [upto_lf] in H; [discriminate|]. destruct (c =? 10); [injection H as _ <-; cbn; lia|]. apply IH in H. cbn. lia.
Qed.
Lemma upto_lf_none : forall l acc line, upto_lf acc l = (line, None) -> line = acc ++ l.
Proof.
  induction l as [|c l IH]; intros acc line H; cbn [upto_lf] in H; [injection H as <-; symmetry; apply app_nil_r|].
  destruct (c =? 10); [discriminate|]. apply IH in H. rewrite H, <- app_assoc. reflexivity.
Qed.
Lemma f_lines_end : forall k f, f_eof f = true -> f_lines k f = repeat (Err ERROR_IO_EOF) k.
Proof.
  induction k as [|k IH]; intros f H; cbn [f_lines repeat]; [reflexivity|]. unfold f_read_line, f_good. rewrite H. cbn [negb andb f_fail f_bad orb f_eof].
  rewrite IH by reflexivity || assumption. reflexivity.
Qed.
Lemma f_lines_all : forall k f, f_good f = true -> let ls := lines_of [] (f_left f) in (length ls <= k)%nat ->
  f_lines k f = map Ok ls ++ repeat (Err ERROR_IO_EOF) (k - length ls).
Proof.
  induction k as [|k IH]; intros f G; cbv zeta; intros Hk.
  - destruct (lines_of [] (f_left f)); [reflexivity|cbn in Hk; lia].
  - cbn [f_lines]. unfold f_read_line. rewrite G. rewrite upto_lf_lines in Hk |- *. destruct (upto_lf [] (f_left f)) as [line [r|]] eqn:E.
    + cbn [f_fail f_bad f_eof orb negb]. cbn [length] in Hk. rewrite IH by (reflexivity || (cbn [f_left]; lia)). cbn [f_left map app length]. f_equal.
    + apply upto_lf_none in E. cbn [app] in E. subst line. destruct (f_left f) as [|c l]; cbn [f_fail f_bad f_eof orb negb].
      * cbn [map app length]. rewrite f_lines_end by reflexivity. rewrite Nat.sub_0_r. reflexivity.
      * cbn [map app length]. rewrite f_lines_end by reflexivity. replace (S k - 1)%nat with k by lia. reflexivity.
Qed.

(** The copying loop. *)
Lemma copy_loop_all : forall fuel b f m s ps x m1 s1,
  fst (run_file (flv_all_prog fuel b) f) = Ok (ps, x) -> flv_write_all m ps s = (Ok tt, m1, s1) ->
  copy_loop fuel b f m s = (match x with Err c => if c =? ERROR_IO_EOF then Ok tt else Err c | r => r end, s1) \/ exists u, x = Ok u.
Proof.
  induction fuel as [|k IH]; intros b f m s ps x m1 s1 H Hw; cbn [flv_all_prog copy_loop] in *.
  - cbn [run_file fst] in H. injection H as <- <-. cbn [flv_write_all] in Hw. injection Hw as <- <-. left. reflexivity.
  - rewrite run_file_bind in H. destruct (run_file (flv_packet_prog b) f) as [r f1]. destruct r as [[r b1]|c| |]; cbn [fst] in H; try discriminate.
    destruct r as [p|c| |]; cbn [run_file fst] in H.
    + rewrite run_file_bind in H. destruct (run_file (flv_all_prog k b1) f1) as [y f2] eqn:E. destruct y as [[qs x1]|c| |]; cbn [fst run_file snd] in H; try discriminate. injection H as <- <-.
      cbn [flv_write_all] in Hw. destruct (flv_write_packet m p s) as [[w m2] s2]. destruct w as [u|c| |]; try discriminate.
      apply (IH b1 f1 m2 s2 qs x1 m1 s1); [rewrite E; reflexivity|exact Hw].
    + injection H as <- <-. cbn [flv_write_all] in Hw. injection Hw as <- <-. left. reflexivity.
    + injection H as <- <-. cbn [flv_write_all] in Hw. injection Hw as <- <-. left. reflexivity.
    + injection H as <- <-. cbn [flv_write_all] in Hw. injection Hw as <- <-. left. reflexivity.
Qed.

Lemma header_reads : forall fill, zlen fill < 2 ^ 62 -> reads_body (flv_header_prog (mkab fill 0 0 true)).
Proof.
  intros fill Hf. pose proof (zlen_nonneg fill). apply (okb_reads (gq anyv) gqe). apply flv_header_gok. unfold abi, ab_cap; cbn [ab_data ab_ptr ab_end ab_rw]; repeat split; lia.
Qed.
Lemma copy_ok : forall fill h ps, 15 <= zlen fill < 2 ^ 24 -> zlen h = 9 -> take 3 h = [0x46; 0x4C; 0x56] -> Forall (flv_transportable (zlen fill)) ps ->
  flv_copy (S (length ps)) fill (h ++ flv_layout 0 ps) = (Ok tt, mksink [] (h ++ flv_layout 0 ps)).
Proof.
  intros fill h ps Hf H9 H3 HF. set (text := h ++ flv_layout 0 ps).
  assert (Hne : text <> []) by (unfold text; destruct h; [discriminate|discriminate]).
  set (t := mktr [text] ERROR_IO_EOF).
  assert (Hc : conn_of (f_new text) = t) by (unfold conn_of, f_new; cbn [f_left]; destruct text; [congruence|reflexivity]).
  assert (Hok : f_ok (f_new text)) by (left; reflexivity).
  assert (Hn : nonempty_chunks (t_chunks t)) by (constructor; [exact Hne|constructor]).
  destruct (flv_demux_stream fill t h (flv_layout 0 ps) (S (length ps)) ltac:(lia) ltac:(lia) Hn ltac:(unfold t, t_stream; cbn [t_chunks concat]; apply app_nil_r) H9 H3 (flv_layout_bytes _ _ HF 0)) as (hp & x & r1 & A & B & C).
  rewrite (spec_flv_all_layout (zlen fill) (t_err t) ps ltac:(lia) HF 0) in A, C. cbn [fst snd flv_end_ok] in A, C. subst x.
  pose proof (run_file_plain _ (header_reads fill ltac:(lia)) _ Hok) as P1. rewrite Hc in P1.
  pose proof (run_file_plain _ (flv_decode_okb (S (length ps)) fill ltac:(lia)) _ Hok) as P2. rewrite Hc, flv_decode_same, A in P2. cbn [fst snd] in P2.
  destruct (flv_header_same (mkab fill 0 0 true) t) as (r & b1 & t1 & E1 & E2). rewrite E2 in P1. cbn [fst] in P1.
  unfold flv_demux, br_new in A. rewrite E1 in A. unfold flv_decode_prog in P2. rewrite run_file_bind in P2. unfold flv_copy.
  destruct (run_file (flv_header_prog (mkab fill 0 0 true)) (f_new text)) as [y f1]. cbn [fst] in P1. subst y.
  destruct r as [p|c| |]; try (injection A; intros; discriminate); try discriminate.
  assert (p = hp). { destruct (flv_read_all (S (length ps)) (mkbr b1 (Some t1))) as [[q1 q2] q3]. injection A. auto. } subst p.
  unfold flv_write_header. rewrite B, H9. cbn [Z.eqb Pos.eqb]. unfold sk_write. cbn [sk_oracle sk_out app].
  destruct (flv_write_all_ok ps flvmux0 h) as [pv Hv].
  { eapply Forall_impl; [|exact HF]. intros q (K1 & K2 & K4 & K5 & K6 & K7). split; [|lia]. unfold flv_known. destruct K7 as [(-> & _)|[(-> & _)|[(-> & _)|(-> & _)]]]; reflexivity. }
  destruct (copy_loop_all _ _ _ _ _ _ _ _ _ P2 Hv) as [K|(u & K)]; [|discriminate]. rewrite K. change (fm_prev flvmux0) with 0. cbn [Z.eqb].
  replace (filter (flv_kept flvmux0) ps) with ps; [reflexivity|]. clear. induction ps as [|q ps IH]; [reflexivity|]. cbn [filter].
  replace (flv_kept flvmux0 q) with true; [rewrite <- IH; reflexivity|]. unfold flv_kept. cbn. rewrite ?andb_false_r. reflexivity.
Qed.

Lemma f_reads_all : forall sizes, Forall (fun n => 0 < n) sizes -> forall text out,
  exists full last k ns ns' rest, sizes = ns ++ ns' ++ rest /\ f_reads (mkfs text false false false out) sizes = map Ok full ++ map Ok last ++ repeat (Err ERROR_IO_EOF) k /\
    Forall2 (fun n d => zlen d = n) ns full /\ Forall2 (fun n d => zlen d < n) ns' last /\ length rest = k /\
    (exists more, text = concat full ++ concat last ++ more /\ (last <> [] -> more = [])) /\
    (length last <= 1)%nat /\ (last = [] -> k = O).
Proof.
  intros sizes HF. induction HF as [|n sizes Hn HF IH]; intros text out.
  - exists [], [], O, [], [], []. cbn. repeat split; try constructor; auto. exists text. split; [reflexivity|congruence].
  - cbn [f_reads]. rewrite f_read_good by (reflexivity || exact Hn). cbn [f_left f_out]. destruct (Z.ltb_spec (zlen text) n) as [L|L].
    + rewrite f_reads_end by (split; [reflexivity|cbn [f_left]; apply drop_all; lia]). rewrite take_all by lia.
      exists [], [text], (length sizes), [], [n], sizes. cbn [app map concat]. rewrite app_nil_r. split; [reflexivity|]. split.
      { f_equal. clear. induction sizes as [|x l IH]; [reflexivity|]. cbn [map repeat length]. f_equal. exact IH. }
      split; [constructor|]. split; [repeat constructor; exact L|]. split; [reflexivity|]. split; [exists []; rewrite app_nil_r; auto|]. split; [cbn; lia|discriminate].
    + destruct (IH (drop n text) out) as (full & last & k & ns & ns' & rest & A & B & C & D & E & (more & F & G) & H & I). rewrite B.
      exists (take n text :: full), last, k, (n :: ns), ns', rest. split; [rewrite A; reflexivity|]. split; [reflexivity|].
      split; [constructor; [rewrite zlen_take by lia; lia|exact C]|]. split; [exact D|]. split; [exact E|]. split; [|split; [exact H|exact I]].
      exists more. split; [|exact G]. cbn [concat]. rewrite <- app_assoc, <- F. symmetry. apply take_drop.
Qed.

Lemma f_writes_bad : forall ds dev f, f_bad f = true -> fst (f_writes f ds dev) = repeat (Err ERROR_FILE_WRITE) (length ds) /\ f_out (snd (f_writes f ds dev)) = f_out f.
Proof.
  induction ds as [|d ds IH]; intros dev f H; cbn [f_writes length repeat]; [split; reflexivity|]. unfold f_write, f_good. rewrite H. rewrite andb_false_r. cbn [f_bad].
  destruct (IH (tl dev) (mkfs (f_left f) (f_eof f) true true (f_out f)) eq_refl) as (A & B). destruct (f_writes _ ds (tl dev)) as [rs f2]. cbn [fst snd] in *. rewrite A. auto.
Qed.
Lemma f_writes_all : forall ds dev text out, length dev = length ds ->
  exists k done, f_writes (mkfs text false false false out) ds dev = (repeat (Ok tt) k ++ repeat (Err ERROR_FILE_WRITE) (length ds - k), done) /\
    f_out done = out ++ concat (firstn k ds) /\ firstn k dev = repeat true k /\ (k <= length ds)%nat /\ (k < length ds -> nth k dev true = false)%nat.
Proof.
  induction ds as [|d ds IH]; intros dev text out H.
  - exists O. eexists. cbn [f_writes repeat length Nat.sub app]. split; [reflexivity|]. cbn. rewrite app_nil_r. repeat split; lia.
  - destruct dev as [|b dev]; [discriminate|]. cbn [f_writes tl]. unfold f_write, f_good. cbn [f_eof f_fail f_bad negb andb f_left f_out]. destruct b.
    + destruct (IH dev text (out ++ d) ltac:(cbn in H; lia)) as (k & done & A & B & C & D & E). rewrite A. exists (S k), done. cbn [repeat app firstn concat length Nat.sub nth].
      split; [reflexivity|]. split; [rewrite B, <- app_assoc; reflexivity|]. split; [rewrite C; reflexivity|]. split; [lia|]. intros K. apply E. lia.
    + destruct (f_writes_bad ds dev (mkfs text false false true out) eq_refl) as (A & B). cbn [f_bad]. destruct (f_writes _ ds dev) as [rs f2]. cbn [fst snd f_out] in *. subst rs.
      exists O, f2. cbn [repeat app firstn concat length Nat.sub nth]. rewrite app_nil_r. repeat split; auto; lia.
Qed.
