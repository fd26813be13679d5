(** C240: when an FLV stream makes its reader read outside the buffer. *)
From Verif Require Import Base M_IO S_IO L_IO M_Text M_Http S_Http L_Http L_Http2 L_Http3 P_Http M_Tls S_Tls L_Tls P_Tls M_Https S_Https L_Https P_Https M_Packet M_Flv S_Flv L_Flv P_Flv M_Upload S_Upload L_Upload P_Upload S_FlvOut L_FlvOut.

(** C240: every FLV stream, cut in every way, through a buffer of any size.  Where the
    bodies lie does not depend on the cutting.  If no tag is too short for its codec
    prefix, nothing is read outside.  At the first such tag the bytes [junk] after its
    body in the buffer decide. *)
Theorem flv_outside_exactly : forall fill t h s fuel, 15 <= zlen fill -> zlen fill < 2 ^ 62 -> nonempty_chunks (t_chunks t) ->
  t_stream t = h ++ s -> zlen h = 9 -> take 3 h = [0x46; 0x4C; 0x56] -> bytes s ->
  let cap := zlen fill in
  exists hp ps x r1, flv_demux fuel (br_new fill t) = (Ok hp, (ps, x, r1)) /\
    match short_tag fuel cap (t_err t) s 9 with
    | None => x <> UB
    | Some (ty, pos, b) => pos + zlen b <= cap /\ zlen b < prefix_size ty /\
        exists junk, zlen junk = cap - (pos + zlen b) /\ (x = UB <-> runs_out ty (b ++ junk) = true)
    end.
Proof.
  intros fill t h s fuel H1 H2 Hn Es Hh Hm Hb cap.
  pose proof (br_new_at fill t H2 Hn) as A. rewrite Es in A.
  destruct (flv_read_header_ok _ _ _ h s 0 A Hh ltac:(lia) Hm) as (f & r1 & _ & Hr & A1).
  assert (P : ab_ptr (br_buf r1) = 9).
  { unfold flv_read_header in Hr. destruct (at_acquire _ _ _ _ _ 9 A ltac:(lia)) as (_ & _ & Ha).
    destruct Ha as (r0 & Hr0 & A0); [lia|rewrite zlen_app; pose proof (zlen_nonneg s); lia|].
    assert (P0 : ab_ptr (br_buf r0) = 0).
    { unfold macquire in Hr0. rewrite (acquire_place _ _ _ (at_ok _ _ _ _ _ A) Hr0). unfold place. cbn. destruct (_ <? 9); reflexivity. }
    unfold mbind at 1 in Hr. rewrite Hr0 in Hr. unfold mbind, lift, rdbytes in Hr. destruct (slice _ _ 9) as [d|]; [|discriminate].
    destruct d as [|a [|b [|c [|d0 [|f0 d]]]]]; try discriminate. destruct ((a =? 0x46) && (b =? 0x4C) && (c =? 0x56)); [|discriminate].
    unfold mret in Hr. injection Hr as _ _ <-. cbn. lia. }
  unfold flv_demux. rewrite Hr. pose proof (all_place fuel r1 (zlen fill) (t_err t) s A1 Hb H1) as K. cbv zeta in K. rewrite P in K.
  destruct (flv_read_all fuel r1) as [[ps x] r2]. cbn [fst snd] in K. eexists _, ps, x, r2. split; [reflexivity|]. unfold cap.
  destruct (short_tag fuel (zlen fill) (t_err t) s 9) as [[[ty pos] b]|]; [|exact K]. destruct K as (K1 & _ & K2 & K3). split; [exact K1|]. split; [exact K2|exact K3].
Qed.
Print Assumptions flv_outside_exactly.

(** C240: so only a short tag whose prefix would reach over the end of the buffer reads
    outside, and one whose body ends at the end of the buffer always does. *)
Theorem flv_outside_at_the_end : forall fill t h s fuel hp ps x r1, 15 <= zlen fill -> zlen fill < 2 ^ 62 -> nonempty_chunks (t_chunks t) ->
  t_stream t = h ++ s -> zlen h = 9 -> take 3 h = [0x46; 0x4C; 0x56] -> bytes s ->
  flv_demux fuel (br_new fill t) = (Ok hp, (ps, x, r1)) ->
  (x = UB -> exists ty pos b, short_tag fuel (zlen fill) (t_err t) s 9 = Some (ty, pos, b) /\ pos + zlen b <= zlen fill < pos + prefix_size ty) /\
  (forall ty pos b, short_tag fuel (zlen fill) (t_err t) s 9 = Some (ty, pos, b) -> pos + zlen b = zlen fill -> x = UB).
Proof.
  intros fill t h s fuel hp ps x r1 H1 H2 Hn Es Hh Hm Hb Hd.
  pose proof (br_new_at fill t H2 Hn) as A. rewrite Es in A.
  destruct (flv_outside_exactly fill t h s fuel H1 H2 Hn Es Hh Hm Hb) as (hp' & ps' & x' & r1' & E & K). cbv zeta in K. rewrite Hd in E. injection E as <- <- <- <-.
  destruct (short_tag fuel (zlen fill) (t_err t) s 9) as [[[ty pos] b]|] eqn:S; [|split; [congruence|discriminate]].
  destruct K as (K1 & K2 & junk & K3 & K4). split.
  - intros Hx. exists ty, pos, b. split; [reflexivity|]. split; [exact K1|]. apply K4 in Hx. apply runs_out_size in Hx. rewrite zlen_app in Hx. lia.
  - intros ty' pos' b' E He. injection E as <- <- <-. apply K4. assert (junk = []) as -> by (apply zlen_0_nil; lia). rewrite app_nil_r.
    exact (short_tag_short _ _ _ _ _ _ _ _ Hb S).
Qed.
Print Assumptions flv_outside_at_the_end.

(** C240: in between it depends on memory the reader never filled: the same stream, the
    same buffer size, two outcomes. *)
Theorem flv_outside_depends_on_memory_refuted : exists fill1 fill2 t,
  zlen fill1 = zlen fill2 /\ snd (fst (snd (flv_demux 3 (br_new fill1 t)))) = UB /\ exists c, snd (fst (snd (flv_demux 3 (br_new fill2 t)))) = Err c.
Proof.
  exists (repeat 0xAF 25), (repeat 0 25), (mktr [flv_default_header ++ [0;0;0;0; 8; 0;0;0; 0;0;0;0; 0;0;0]] 5).
  split; [reflexivity|]. split; [vm_compute; reflexivity|]. eexists. vm_compute. reflexivity.
Qed.
Print Assumptions flv_outside_depends_on_memory_refuted.

(** A script tag that fills a buffer of 60 bytes up to 15 bytes before its end, then an
    empty audio tag: its body lies at the end of the buffer; with a script tag one byte
    shorter it does not, and with one byte more the tag is moved to the front. *)
Example flv_outside_cases :
  let tag ty n body := [0;0;0;0; ty; 0;0;n; 0;0;0;0; 0;0;0] ++ body in
  let run n := let s := tag 18 n (repeat 7 (Z.to_nat n)) ++ tag 8 0 [] in
    (short_tag 5 60 9 s 9, snd (fst (snd (flv_demux 5 (br_new (repeat 0 60) (mktr [flv_default_header ++ s] 9)))))) in
  run 21 = (Some (8, 60, []), UB) /\ run 20 = (Some (8, 59, []), Err ERROR_FLV_AUDIO_CODECID) /\ run 22 = (Some (8, 15, []), Err ERROR_FLV_AUDIO_CODECID).
Proof. cbv zeta. split; [vm_compute; reflexivity|]. split; vm_compute; reflexivity. Qed.

(** C240: so for an upload over HTTP, however the client frames the body and however the
    network divides the request. *)
Theorem upload_outside_exactly : forall framing fuel fill t h wire body more fh s,
  nonempty_chunks (t_chunks t) -> is_head h -> zlen h <= MAX_HEADER -> t_stream t = h ++ wire ->
  framed (framing h) wire body more -> body = fh ++ s -> zlen fh = 9 -> take 3 fh = [0x46; 0x4C; 0x56] -> bytes s -> 15 <= zlen fill < 2 ^ 62 ->
  let cap := zlen fill in
  exists ps x, fst (run_plain (upload_prog framing fuel fill) t) = Ok (Ok (h, ps, x)) /\
    match short_tag fuel cap ERROR_HTTP_RES_EOF s 9 with
    | None => x <> UB
    | Some (ty, pos, b) => pos + zlen b <= cap /\ zlen b < prefix_size ty /\
        exists junk, zlen junk = cap - (pos + zlen b) /\ (x = UB <-> runs_out ty (b ++ junk) = true)
    end.
Proof.
  intros framing fuel fill t h wire body more fh s Hn Hh Hmx Hst Hfr Hbody H9 Hm Hb Hf cap.
  destruct (read_head_ok h wire t MAX_HEADER (is_head_shape h Hh) Hn Hst Hmx) as (t1 & A1 & A2 & A3 & A4).
  destruct (framing h) as [ch cl] eqn:Efr.
  assert (Hfr' : framed (ch, cl) (t_stream t1 ++ []) body more) by (rewrite app_nil_r, A2; exact Hfr).
  rewrite <- plus_stream in Hfr'.
  pose proof (framed_live _ _ _ _ _ Hfr' (plus_ne _ [] A3)) as L.
  destruct (over_body_sim _ (flv_decode_okb fuel fill (proj2 Hf)) _ t1 body more [] A3 (or_introl L)) as (cs & err & B1 & B2 & B3).
  destruct B3 as [(-> & B3)|(_ & Hmm & _)]; [|congruence].
  assert (Es : t_stream (mktr cs ERROR_HTTP_RES_EOF) = fh ++ s) by (unfold t_stream; cbn [t_chunks]; congruence).
  destruct (flv_outside_exactly fill (mktr cs ERROR_HTTP_RES_EOF) fh s fuel (proj1 Hf) (proj2 Hf) B1 Es H9 Hm Hb) as (hp & ps & x & r1 & E & K).
  exists ps, x. split; [|exact K]. rewrite flv_decode_same, E in B2. apply (run_upload _ _ _ _ _ _ A1). rewrite Efr. exact B2.
Qed.
Print Assumptions upload_outside_exactly.
(** A chunked upload whose empty audio tag lies at the end of the buffer, and one byte
    before it. *)
Example upload_outside_case :
  let tag ty n body := [0;0;0;0; ty; 0;0;n; 0;0;0;0; 0;0;0] ++ body in
  let body n := flv_default_header ++ tag 18 n (repeat 7 (Z.to_nat n)) ++ tag 8 0 [] in
  let run n := match fst (run_plain (upload_prog (fun _ => (true, -1)) 9 (repeat 0 60)) (mktr [ex_post ++ enc (take 20 (body n)); enc (drop 20 (body n)) ++ enc []] 1004)) with
    | Ok (Ok (h, ps, x)) => Some (x, zlen ps) | _ => None end in
  run 21 = Some (UB, 1) /\ run 20 = Some (Err ERROR_FLV_AUDIO_CODECID, 1).
Proof. cbv zeta. split; vm_compute; reflexivity. Qed.
