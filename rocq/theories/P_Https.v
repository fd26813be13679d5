(** Reading through a TLS socket: theorems. *)
From Verif Require Import Base M_IO S_IO M_Text M_Http S_Http L_Http L_Http2 L_Http3 P_Http M_Tls S_Tls L_Tls P_Tls M_Https S_Https L_Https.

(** C143: whatever a program does with what it reads, over a TLS socket it ends
    as it would over a plain connection that brings the plaintext in some
    division, and then the connection's own error; if the library fails, the
    plaintext up to there, and then the error of TLS reads. *)
Theorem tls_transparent : forall E A (g : reader E) R dec fuel (p : prog A) e io, decrypts g R dec -> R e [] [] [] -> reads_ok p ->
  nonempty_chunks (t_chunks io) -> (length (t_stream io) < fuel)%nat ->
  exists cs err, nonempty_chunks cs /\ fst (run_tls fuel g p (e, [], io)) = fst (run_plain p (mktr cs err)) /\
    ((err = t_err io /\ concat cs = dec (t_stream io)) \/
     (err = ERROR_SSL_READ /\ lib_fails g /\ exists t, dec (t_stream io) = concat cs ++ t)).
Proof.
  intros E A g R dec fuel p e io D HR Hp HF Hl. destruct (run_tls fuel g p (e, [], io)) as [x st] eqn:H.
  destruct (run_tls_plain g R dec D fuel p Hp e [] io [] [] x st HR (ex_intro _ (dec []) eq_refl) HF Hl H) as (cs & err & A1 & A2 & A3).
  exists cs, err. split; [exact A1|]. split; [symmetry; exact A2|]. destruct A3 as [(B1 & B2)|(B1 & B2 & B3)]; [left|right]; auto.
Qed.
(** The reader of M_Http.v is such a program. *)
Example tls_transparent_case : reads_ok (head_prog 2048) /\
  (forall t max, run_plain (head_prog max) t = (let '(r, t1) := read_head t max in (Ok r, t1))) /\
  fst (run_tls 99 toy_rd (head_prog 2048) (tt, [], mktr [map (Z.lxor 1) (take 7 ex_head); map (Z.lxor 1) (drop 7 ex_head)] 1004)) = Ok (Ok ex_head).
Proof. split; [exact (okp_reads _ _ _ (head_okp _))|]. split; [intros; apply head_prog_run|vm_compute; reflexivity]. Qed.
Print Assumptions tls_transparent.

(** C144: a request over TLS is read exactly: however the network divides the
    handshake and, in packets of its own, the ciphertext, the server gets the
    head and then the body, whole and in order, and the end of the body where it
    is. *)
Theorem https_request_exact : forall E (g : engine E) R1 R2 Dn ch f1 ck f2 (gr : reader E) R dec framing fuel e ds1 ds2 rest err i h stream body more sizes,
  two_flights g R1 R2 Dn ch f1 ck f2 -> ch <> [] -> f1 <> [] -> ck <> [] -> f2 <> [] -> R1 e [] [] ->
  decrypts gr R dec -> (forall e', Dn e' -> R e' [] [] []) -> ~ lib_fails gr ->
  pieces_of ds1 ch -> pieces_of ds2 ck -> nonempty_chunks rest ->
  (length ch < fuel)%nat -> (length ck < fuel)%nat -> (length (concat rest) < fuel)%nat ->
  dec (concat rest) = h ++ stream -> is_head h -> zlen h <= MAX_HEADER -> framed (framing h) stream body more ->
  Forall (fun n => 0 < n) sizes -> zlen body + 1 < zlen sizes ->
  exists ds, tls_serve fuel g gr KwAll KwAll (Ok tt) (mktls e [] [] (mktr (ds1 ++ ds2 ++ rest) err) [] i) (request_prog framing sizes)
    = Ok (Ok (h, ds, Err ERROR_HTTP_RES_EOF)) /\ concat ds = body.
Proof.
  intros E g R1 R2 Dn ch f1 ck f2 gr R dec framing fuel e ds1 ds2 rest err i h stream body more sizes T N1 N2 N3 N4 HR1 D HD HNF P1 P2 HF L1 L2 L3 Hdec Hh Hm Hfr Hs Hz.
  destruct (tls_accept_any_division E g R1 R2 Dn ch f1 ck f2 fuel e ds1 ds2 rest err i T N1 N2 N3 N4 HR1 P1 P2 L1 L2) as (e' & He & Hacc).
  unfold tls_serve. rewrite Hacc. cbn [tl_e tl_r tl_io].
  (* the head *)
  assert (Hhead : exists st1, run_tls fuel gr (head_prog MAX_HEADER) (e', [], mktr rest err) = (Ok (Ok h), st1)).
  { destruct (tls_transparent _ _ gr R dec fuel (head_prog MAX_HEADER) e' (mktr rest err) D (HD _ He) (okp_reads _ _ _ (head_okp _)) HF L3) as (cs & er & A1 & A2 & [(A3 & A4)|(_ & A4 & _)]); [|contradiction].
    change (t_stream (mktr rest err)) with (concat rest) in A4. rewrite Hdec in A4.
    destruct (head_reader_exact h stream (mktr cs er) MAX_HEADER Hh A1 A4 Hm) as (t1 & B1 & _). rewrite head_prog_run, B1 in A2. cbn [fst] in A2.
    destruct (run_tls fuel gr (head_prog MAX_HEADER) (e', [], mktr rest err)) as [x st1]. cbn in A2. subst x. eauto. }
  destruct Hhead as (st1 & Hhead).
  set (fr' := fun x => if eqb_list x h then framing h else (true, 0)).
  assert (Hfr' : framing h = fr' h) by (unfold fr'; rewrite eqb_list_refl; reflexivity).
  rewrite (request_prog_head gr fuel framing fr' sizes h _ st1 Hhead Hfr').
  assert (Hok : reads_ok (request_prog fr' sizes)).
  { apply request_okp; [exact Hs|]. intros x. unfold fr'. destruct (eqb_list x h); [|right; left; cbn; lia].
    unfold framed in Hfr. destruct (framing h) as [c cl]. cbn [fst snd] in *. destruct c; [right; left; cbn; lia|].
    right; right. cbn. split; [reflexivity|]. right. lia. }
  destruct (tls_transparent _ _ gr R dec fuel (request_prog fr' sizes) e' (mktr rest err) D (HD _ He) Hok HF L3) as (cs & er & A1 & A2 & [(A3 & A4)|(_ & A4 & _)]); [|contradiction].
  change (t_stream (mktr rest err)) with (concat rest) in A4. rewrite Hdec in A4. rewrite A2.
  destruct (read_head_ok h stream (mktr cs er) MAX_HEADER (is_head_shape h Hh) A1 A4 Hm) as (t1 & B1 & B2 & B3 & _).
  unfold request_prog. rewrite run_plain_bind, head_prog_run, B1. rewrite <- Hfr'. unfold framed in Hfr. destruct (framing h) as [c cl] eqn:Ef. cbn [fst snd] in Hfr.
  assert (K : exists ds b2 t2, hb_run rq_data (hb_new c cl) t1 sizes = (ds, Err ERROR_HTTP_RES_EOF, b2, t2) /\ concat ds = body).
  { destruct c.
    - rewrite <- B2 in Hfr. destruct (chunked_reader rq_data sizes (hb_new true cl) t1 body more (or_introl eq_refl) eq_refl eq_refl eq_refl B3 Hfr Hs) as (ds & er2 & b2 & t2 & mo & C1 & C2 & C3 & C4).
      rewrite (C4 Hz) in *. destruct C3 as [C3|(_ & C3 & _)]; [discriminate|]. subst mo. rewrite app_nil_r in C2. exists ds, b2, t2. auto.
    - destruct Hfr as (F1 & F2 & F3). rewrite F1 in B2. subst cl.
      destruct (fixed_body_exact rq_data sizes t1 body more F3 B3 B2 Hs) as (ds & er2 & b2 & t2 & mo & C1 & C2 & C3 & C4).
      rewrite (C4 ltac:(lia)) in *. destruct C3 as [C3|(_ & C3 & _)]; [discriminate|]. subst mo. rewrite app_nil_r in C2. exists ds, b2, t2. auto. }
  destruct K as (ds & b2 & t2 & K1 & K2). rewrite run_plain_bind, body_prog_run, K1. exists ds. split; [reflexivity|exact K2].
Qed.
Definition ex_wire : list Z := ex_head ++ str "5" ++ [13; 10] ++ str "hello" ++ [13; 10] ++ str "0" ++ [13; 10; 13; 10].
Example https_request_case :
  tls_serve 99 toy toy_rd2 KwAll KwAll (Ok tt)
    (mktls 0%nat [] [] (mktr ([[1]; [2]] ++ [[4; 5]] ++ [map (Z.lxor 1) (take 30 ex_wire); map (Z.lxor 1) (drop 30 ex_wire)]) 1004) [] false)
    (request_prog (fun _ => (true, -1)) [3; 3; 3; 3; 3; 3; 3; 3])
  = Ok (Ok (ex_head, [str "hel"; str "lo"; []], Err ERROR_HTTP_RES_EOF)).
Proof. vm_compute. reflexivity. Qed.
Example https_request_contracts : two_flights toy (fun e r p => e = O /\ r = p) (fun e r p => e = 1%nat /\ r = p) (fun e => e = 2%nat) [1; 2] [3] [4; 5] [6] /\
  decrypts toy_rd2 (fun _ r c q => exists p, c = p ++ r /\ q = map (Z.lxor 1) p) (map (Z.lxor 1)) /\ ~ lib_fails toy_rd2 /\
  framed (true, -1) (drop (zlen ex_head) ex_wire) (str "hello") [].
Proof.
  split; [exact toy_ok|]. split; [exact toy_rd2_ok|]. split; [exact toy_rd2_never_fails|].
  assert (K : chunked (flat_map enc [str "hello"] ++ enc [] ++ []) (concat [str "hello"] ++ []) []).
  { apply enc_chunked; [constructor; [split; [discriminate|reflexivity]|constructor]|apply enc_nil_chunked]. }
  exact K.
Qed.
Print Assumptions https_request_exact.
