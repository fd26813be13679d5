(** HTTP over SRT: theorems. *)
From Verif Require Import Base M_IO S_IO M_File L_File M_Text M_Http S_Http L_Http L_Http2 L_Http3 P_Http M_Srt S_Srt L_Srt M_Tls S_Tls M_Https S_Https L_Https M_Upload S_Upload L_Upload M_Edge S_Edge L_Edge M_Get S_Get L_Get.

(** C223: whatever a program does with what it reads, over an SRT socket it ends
    as it would over a plain connection that brings each message as one piece and
    then the first error. *)
Theorem srt_transparent : forall A (p : prog A) raw evs ms c, reads_ok p -> zlen raw = 1316 -> arrives evs ms c ->
  fst (run_srt p (srt_open raw evs)) = fst (run_plain p (mktr ms c)).
Proof. intros A p raw evs ms c Hp Hr Ha. rewrite (run_srt_plain p Hp _ ms c (srt_open_ok raw evs Hr) Ha), srt_open_pending. reflexivity. Qed.
Example srt_transparent_case : reads_ok (head_prog 2048) /\ zlen (repeat 0 1316) = 1316 /\
  arrives [SvMsg (take 7 ex_head); SvAgain 0; SvMsg (drop 7 ex_head); SvClosed] [take 7 ex_head; drop 7 ex_head] ERROR_SRT_SOCKET_CLOSED /\
  fst (run_srt (head_prog 2048) (srt_open (repeat 0 1316) [SvMsg (take 7 ex_head); SvAgain 0; SvMsg (drop 7 ex_head); SvClosed])) = Ok (Ok ex_head).
Proof.
  split; [exact (okp_reads _ _ _ (head_okp _))|]. split; [reflexivity|]. split; [|vm_compute; reflexivity].
  constructor; [vm_compute; split; discriminate|]. constructor. constructor; [vm_compute; split; discriminate|]. constructor.
Qed.
Print Assumptions srt_transparent.

(** C223: a request over SRT is read exactly: in whatever messages it comes, the
    server gets the head and then the body, whole and in order, and the end of
    the body where it is. *)
Theorem srt_request_exact : forall framing raw evs ms c h stream body more sizes, zlen raw = 1316 -> arrives evs ms c ->
  concat ms = h ++ stream -> is_head h -> zlen h <= MAX_HEADER -> framed (framing h) stream body more ->
  Forall (fun n => 0 < n) sizes -> zlen body + 1 < zlen sizes ->
  exists ds, fst (run_srt (request_prog framing sizes) (srt_open raw evs)) = Ok (Ok (h, ds, Err ERROR_HTTP_RES_EOF)) /\ concat ds = body.
Proof.
  intros framing raw evs ms c h stream body more sizes Hr Ha Hst Hh Hm Hfr Hs Hz. pose proof (arrives_ne _ _ _ Ha) as A1.
  assert (Hhead : exists s1, run_srt (head_prog MAX_HEADER) (srt_open raw evs) = (Ok (Ok h), s1)).
  { pose proof (srt_transparent _ (head_prog MAX_HEADER) raw evs ms c (okp_reads _ _ _ (head_okp _)) Hr Ha) as A2.
    destruct (head_reader_exact h stream (mktr ms c) MAX_HEADER Hh A1 Hst Hm) as (t1 & B1 & _). rewrite head_prog_run, B1 in A2. cbn [fst] in A2.
    destruct (run_srt (head_prog MAX_HEADER) (srt_open raw evs)) as [x s1]. cbn in A2. subst x. eauto. }
  destruct Hhead as (s1 & Hhead).
  set (fr' := fun x => if eqb_list x h then framing h else (true, 0)).
  assert (Hfr' : framing h = fr' h) by (unfold fr'; rewrite eqb_list_refl; reflexivity).
  rewrite (request_srt_head framing fr' sizes h _ s1 Hhead Hfr').
  assert (Hok : reads_ok (request_prog fr' sizes)).
  { apply request_okp; [exact Hs|]. intros x. unfold fr'. destruct (eqb_list x h); [|right; left; cbn; lia].
    unfold framed in Hfr. destruct (framing h) as [b cl]. cbn [fst snd] in *. destruct b; [right; left; cbn; lia|].
    right; right. cbn. split; [reflexivity|]. right. lia. }
  rewrite (srt_transparent _ (request_prog fr' sizes) raw evs ms c Hok Hr Ha).
  destruct (read_head_ok h stream (mktr ms c) MAX_HEADER (is_head_shape h Hh) A1 Hst Hm) as (t1 & B1 & B2 & B3 & _).
  unfold request_prog. rewrite run_plain_bind, head_prog_run, B1. rewrite <- Hfr'. unfold framed in Hfr. destruct (framing h) as [b cl] eqn:Ef. cbn [fst snd] in Hfr.
  assert (K : exists ds b2 t2, hb_run rq_data (hb_new b cl) t1 sizes = (ds, Err ERROR_HTTP_RES_EOF, b2, t2) /\ concat ds = body).
  { destruct b.
    - rewrite <- B2 in Hfr. destruct (chunked_reader rq_data sizes (hb_new true cl) t1 body more (or_introl eq_refl) eq_refl eq_refl eq_refl B3 Hfr Hs) as (ds & er2 & b2 & t2 & mo & C1 & C2 & C3 & C4).
      rewrite (C4 Hz) in *. destruct C3 as [C3|(_ & C3 & _)]; [discriminate|]. subst mo. rewrite app_nil_r in C2. exists ds, b2, t2. auto.
    - destruct Hfr as (F1 & F2 & F3). rewrite F1 in B2. subst cl.
      destruct (fixed_body_exact rq_data sizes t1 body more F3 B3 B2 Hs) as (ds & er2 & b2 & t2 & mo & C1 & C2 & C3 & C4).
      rewrite (C4 ltac:(lia)) in *. destruct C3 as [C3|(_ & C3 & _)]; [discriminate|]. subst mo. rewrite app_nil_r in C2. exists ds, b2, t2. auto. }
  destruct K as (ds & b2 & t2 & K1 & K2). rewrite run_plain_bind, body_prog_run, K1. exists ds. split; [reflexivity|exact K2].
Qed.
Definition ex_srt_wire : list Z := ex_head ++ str "5" ++ [13; 10] ++ str "hello" ++ [13; 10] ++ str "0" ++ [13; 10; 13; 10].
Example srt_request_case :
  fst (run_srt (request_prog (fun _ => (true, -1)) [3; 3; 3; 3; 3; 3; 3; 3])
    (srt_open (repeat 0 1316) [SvMsg (take 30 ex_srt_wire); SvAgain 0; SvMsg (drop 30 ex_srt_wire); SvClosed]))
  = Ok (Ok (ex_head, [str "hel"; str "lo"; []], Err ERROR_HTTP_RES_EOF)).
Proof. vm_compute. reflexivity. Qed.
Print Assumptions srt_request_exact.

(** C223: an answer whose declared length is zero is not recognised as complete:
    with nothing more to come the reader of its body goes on waiting; the next
    message, which belongs to something else, ends the wait and is kept. *)
Theorem srt_empty_body_waits : forall s size, srt_ok s -> unread s = [] -> 0 <= size ->
  (sr_evs s = [] -> fst (run_srt (up_prog (hb_new false 0) size) s) = Fuel) /\
  (forall d l, sr_evs s = SvMsg d :: l -> 1 <= zlen d <= 1316 -> exists b s1,
     run_srt (up_prog (hb_new false 0) size) s = (Ok (Ok [], b), s1) /\ hb_eof b = true /\ unread s1 = d /\ sr_evs s1 = l).
Proof.
  intros s size Hok Hu Hs. pose proof (unread_len s Hok) as Hz. rewrite Hu, zlen_nil in Hz. pose proof Hok as (Hl & Hrw & Hp).
  assert (ab_ptr (sr_buf s) = 0 /\ ab_end (sr_buf s) = 0) as (P0 & E0) by lia.
  assert (ab_cap_size (sr_buf s) = 1316) as Hc by (unfold ab_cap_size, ab_norewind, ab_cap; rewrite Hrw, P0, Hl; reflexivity).
  unfold up_prog, hb_new. cbn [hb_eof hb_chunked hb_cl hb_nread hb_size hb_left]. change (0 <=? 0) with true. cbv iota zeta. change (u64 (0 - 0)) with 0. rewrite Z.min_l by lia.
  cbn [run_srt]. unfold srt_read. rewrite ab_size_small by lia. replace (0 <? ab_end (sr_buf s) - ab_ptr (sr_buf s)) with false by lia.
  change (0 <? SRT_PLSIZE) with true. cbv iota. rewrite Hc. split.
  - intros ->. reflexivity.
  - intros d l -> Hd. cbn [st_srt_read]. change (1316 <? SRT_PLSIZE) with false. cbv iota. rewrite take_all by lia.
    unfold ab_store. replace ((0 <=? 0) && (0 + zlen d <=? ab_cap (sr_buf s))) with true by (unfold ab_cap; lia).
    rewrite (take_0 0) by lia. cbn [app ab_data ab_ptr ab_end ab_rw]. rewrite P0, E0, Hrw.
    set (s0 := mksrt (mkab (d ++ drop (0 + zlen d) (ab_data (sr_buf s))) 0 (0 + zlen d) false) l).
    assert (srt_ok s0) as Hok0.
    { unfold s0, srt_ok. cbn [sr_buf ab_data ab_ptr ab_end ab_rw]. split; [rewrite zlen_app, zlen_drop by lia; lia|]. split; [reflexivity|]. right. lia. }
    assert (unread s0 = d) as Hu0.
    { unfold s0, unread. cbn [sr_buf ab_data ab_ptr ab_end]. rewrite drop_0 by lia. apply take_app_exact. lia. }
    destruct (srt_serve_spec s0 0 Hok0 ltac:(lia)) as (x & s1 & -> & _ & V1 & U1 & Z1). rewrite Hu0, Z.min_l in Z1 by lia.
    assert (x = []) as -> by (apply zlen_0_nil; exact Z1). cbn [run_srt]. eexists _, s1. split; [reflexivity|]. cbn [hb_eof]. split; [reflexivity|]. rewrite Hu0 in U1. auto.
Qed.
Example srt_empty_body_case :
  let s := srt_open (repeat 0 1316) [SvMsg (str "next")] in srt_ok s /\ unread s = [] /\
  fst (run_srt (up_prog (hb_new false 0) 1023) s) = Ok (Ok [], mkhb false 0 true 0 0 0).
Proof. cbv zeta. split; [apply srt_open_ok; reflexivity|]. split; [reflexivity|vm_compute; reflexivity]. Qed.
Print Assumptions srt_empty_body_waits.

(** C224: a download that is complete: the file holds exactly the body of the
    answer, whatever its status and however it is framed, in whatever messages it
    came. *)
Theorem download_exact : forall lib fuel raw evs ms c h wire n ri body text, zlen raw = 1316 -> arrives evs ms c -> is_head h -> zlen h <= MAX_HEADER ->
  concat ms = h ++ wire -> lib h = (n, ri) -> 0 < n -> answer_body (ri_chunked ri) (ri_cl ri) wire body -> zlen body + 1 < Z.of_nat fuel ->
  exists f, get_main lib fuel (srt_open raw evs) (Some (f_new text)) [] = Ok (Some f, 0) /\ f_out f = body.
Proof.
  intros lib fuel raw evs ms c h wire n ri body text Hr Ha Hh Hx Hst Hl Hn Hb Hf.
  destruct (get_srt lib fuel raw evs ms c [] h wire n ri body Hr Ha Hh Hx ltac:(rewrite app_nil_r; exact Hst) Hl Hn Hb Hf) as (ds & r & tl & E & Hbody & Hm & _ & _).
  destruct (Hm eq_refl) as (-> & ->). unfold get_main. rewrite E. cbn [Z.eqb Pos.eqb option_map]. eexists. split; [reflexivity|].
  destruct (f_writes_prefix ds text [] []) as (more & A & B). rewrite (B ltac:(constructor)), app_nil_r in A. rewrite app_nil_r in Hbody. unfold f_new. rewrite <- A. symmetry. exact Hbody.
Qed.
(** What the server of this project sends over SRT arrives so. *)
Theorem sent_answer_arrives : forall ws ms, sent ws ms -> concat ms = concat ws /\ arrives (map SvMsg ms ++ [SvClosed]) ms ERROR_SRT_SOCKET_CLOSED.
Proof. intros ws ms H. destruct (sent_bytes ws ms H) as (A & B). split; [exact A|]. apply sent_arrives, B. Qed.
Definition ex_answer : list Z := str "HTTP/1.1 404 Not Found" ++ [13; 10] ++ str "Content-Length: 5" ++ [13; 10; 13; 10].
Definition ex_ri : rsp_info := mkri 404 5 false [].
Example download_case : sent [ex_answer; str "hello"] [ex_answer; str "hello"] /\ is_head ex_answer /\
  answer_body false 5 (str "hello") (str "hello") /\
  get_main (fun _ => (45, ex_ri)) 99 (srt_open (repeat 0 1316) (map SvMsg [ex_answer; str "hello"] ++ [SvClosed])) (Some (f_new [])) [] = Ok (Some (mkfs [] false false false (str "hello")), 0).
Proof.
  split; [|split; [|split; [|vm_compute; reflexivity]]].
  - apply (sent_write _ _ [SsOk] [ex_answer] [str "hello"]); [vm_compute; reflexivity|]. apply (sent_write _ _ [SsOk] [str "hello"] []); [vm_compute; reflexivity|constructor].
  - exists [str "HTTP/1.1 404 Not Found"; str "Content-Length: 5"]. split; [discriminate|]. split; [|reflexivity].
    constructor; [|constructor; [|constructor]]; (split; [discriminate|apply plain_lit; reflexivity]).
  - left. exists []. unfold S_Https.framed. cbn. repeat split; lia.
Qed.
Print Assumptions download_exact.
Print Assumptions sent_answer_arrives.

(** C224 fails otherwise: however little of the answer came, and whatever the
    disk refuses, the program ends with status 0; what is in the file is then the
    beginning of the body, possibly all of it, or no file is made. *)
Theorem download_failure_unreported : forall lib fuel raw evs ms c miss h wire n ri body text dev, zlen raw = 1316 -> arrives evs ms c -> is_head h -> zlen h <= MAX_HEADER ->
  concat ms ++ miss = h ++ wire -> lib h = (n, ri) -> 0 < n -> answer_body (ri_chunked ri) (ri_cl ri) wire body -> zlen body + 1 < Z.of_nat fuel ->
  exists fo, get_main lib fuel (srt_open raw evs) (Some (f_new text)) dev = Ok (fo, 0) /\
    match fo with Some f => exists tl, body = f_out f ++ tl | None => miss <> [] end.
Proof.
  intros lib fuel raw evs ms c miss h wire n ri body text dev Hr Ha Hh Hx Hst Hl Hn Hb Hf.
  destruct (get_srt lib fuel raw evs ms c miss h wire n ri body Hr Ha Hh Hx Hst Hl Hn Hb Hf) as (ds & r & tl & E & Hbody & Hm & Hcase & _).
  unfold get_main. rewrite E. eexists. split; [reflexivity|]. destruct Hcase as [->|(-> & ->)]; cbn [Z.eqb Pos.eqb option_map].
  - destruct (f_writes_prefix ds text [] dev) as (more & A & _). cbn [app] in A. exists (more ++ tl). rewrite app_assoc. unfold f_new. rewrite <- A. exact Hbody.
  - intros ->. destruct (Hm eq_refl) as (_ & K). discriminate K.
Qed.
(** Three bytes of five, and a full disk. *)
Example download_failure_case :
  get_main (fun _ => (45, ex_ri)) 99 (srt_open (repeat 0 1316) (map SvMsg [ex_answer; str "hel"] ++ [SvFail])) (Some (f_new [])) [] = Ok (Some (mkfs [] false false false (str "hel")), 0) /\
  get_main (fun _ => (45, ex_ri)) 99 (srt_open (repeat 0 1316) (map SvMsg [ex_answer; str "hello"] ++ [SvClosed])) (Some (f_new [])) [false] = Ok (Some (mkfs [] false false true []), 0).
Proof. split; vm_compute; reflexivity. Qed.
Print Assumptions download_failure_unreported.

(** C224: no piece is longer than 1023 bytes, so that the zero byte stored after
    it is within the tool's buffer of 1024; a head the parser takes nothing of
    crashes the tool. *)
Theorem download_pieces_fit : forall lib fuel raw evs ms c miss h wire n ri body, zlen raw = 1316 -> arrives evs ms c -> is_head h -> zlen h <= MAX_HEADER ->
  concat ms ++ miss = h ++ wire -> lib h = (n, ri) -> 0 < n -> answer_body (ri_chunked ri) (ri_cl ri) wire body -> zlen body + 1 < Z.of_nat fuel ->
  exists ds r, fst (run_srt (get_prog lib fuel) (srt_open raw evs)) = Ok (Ok (ds, r)) /\ Forall (fun d => zlen d < 1024) ds.
Proof.
  intros lib fuel raw evs ms c miss h wire n ri body Hr Ha Hh Hx Hst Hl Hn Hb Hf.
  destruct (get_srt lib fuel raw evs ms c miss h wire n ri body Hr Ha Hh Hx Hst Hl Hn Hb Hf) as (ds & r & tl & E & _ & _ & _ & F).
  exists ds, r. split; [exact E|]. eapply Forall_impl; [|exact F]. cbn. lia.
Qed.
Example download_pieces_case : match fst (run_srt (get_prog (fun _ => (45, mkri 200 1300 false [])) 99) (srt_open (repeat 0 1316) (map SvMsg [ex_answer; repeat 7 1300] ++ [SvClosed]))) with
  | Ok (Ok (ds, r)) => map zlen ds = [1023; 277] /\ r = -2 | _ => False end.
Proof. vm_compute. split; reflexivity. Qed.
Print Assumptions download_pieces_fit.
Theorem download_unparsed_crashes : forall lib fuel raw evs ms c h wire ri file dev, zlen raw = 1316 -> arrives evs ms c -> is_head h -> zlen h <= MAX_HEADER ->
  concat ms = h ++ wire -> lib h = (0, ri) -> get_main lib fuel (srt_open raw evs) file dev = UB.
Proof.
  intros lib fuel raw evs ms c h wire ri file dev Hr Ha Hh Hx Hst Hl.
  pose proof (srt_transparent _ (head_prog MAX_HEADER) raw evs ms c (okp_reads _ _ _ (head_okp _)) Hr Ha) as A2.
  destruct (head_reader_exact h wire (mktr ms c) MAX_HEADER Hh (arrives_ne _ _ _ Ha) Hst Hx) as (t1 & B1 & _). rewrite head_prog_run, B1 in A2. cbn [fst] in A2.
  unfold get_main, get_prog. rewrite run_srt_bind. destruct (run_srt (head_prog MAX_HEADER) (srt_open raw evs)) as [x s1]. cbn in A2. subst x. rewrite Hl. reflexivity.
Qed.
Example download_unparsed_case : get_main (fun _ => (0, ex_ri)) 99 (srt_open (repeat 0 1316) (map SvMsg [ex_answer] ++ [SvClosed])) None [] = UB.
Proof. vm_compute. reflexivity. Qed.
Print Assumptions download_unparsed_crashes.
