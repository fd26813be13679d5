(** HTTP: property theorems. *)
From Verif Require Import Base M_IO S_IO L_IO M_Text M_Http S_Http L_Http L_Http2 L_Http3.

(** * Head reader (C25) *)

(** Whatever the partition of the stream into reads, the reader returns exactly
    the head and leaves exactly the body. *)
Theorem head_reader_exact :
  forall h body t max, is_head h -> nonempty_chunks (t_chunks t) -> t_stream t = h ++ body -> zlen h <= max ->
  exists t1, read_head t max = (Ok h, t1) /\ t_stream t1 = body.
Proof.
  intros h body t max Hh Hne Hst Hm.
  destruct (read_head_ok h body t max (is_head_shape h Hh) Hne Hst Hm) as (t1 & A & B & _). eauto.
Qed.
Print Assumptions head_reader_exact.
Definition ex_head : list Z := str "GET /a HTTP/1.1" ++ [13; 10] ++ str "Host: x" ++ [13; 10; 13; 10].
Lemma ex_head_ok : is_head ex_head.
Proof.
  exists [str "GET /a HTTP/1.1"; str "Host: x"]. split; [discriminate|]. split; [|reflexivity].
  constructor; [|constructor; [|constructor]]; (split; [discriminate|apply plain_lit; reflexivity]).
Qed.
Example head_reader_exact_case :
  is_head ex_head /\ nonempty_chunks [take 3 ex_head; drop 3 ex_head ++ str "body"] /\
  fst (read_head (mktr [take 3 ex_head; drop 3 ex_head ++ str "body"] (-5)) 2048) = Ok ex_head.
Proof. split; [exact ex_head_ok|]. split; [|vm_compute; reflexivity]. constructor; [discriminate|constructor; [discriminate|constructor]]. Qed.

(** A head longer than the limit is refused after at most [max] bytes. *)
Theorem head_reader_limit :
  forall h body t max, is_head h -> nonempty_chunks (t_chunks t) -> t_stream t = h ++ body ->
  0 <= max < zlen h ->
  exists t1 d, read_head t max = (Err (-1), t1) /\ t_stream t = d ++ t_stream t1 /\ zlen d <= max.
Proof.
  intros h body t max Hh Hne Hst Hm.
  destruct (read_head_any t max Hne) as (x & t1 & Hr & Hx); [lia|].
  destruct Hx as [(d & -> & Hd & Hs & Hn)|[(-> & d & Hs & Hd)|(-> & _ & Hl)]].
  - exfalso. assert (exists q, h = d ++ q /\ q <> []) as (q & Hq & Hq0).
    { exists (drop (zlen d) h). split.
      - rewrite Hst in Hs. apply (f_equal (take (zlen d))) in Hs.
        rewrite take_app_le in Hs by lia. rewrite take_app_exact in Hs by reflexivity.
        rewrite <- Hs at 1. symmetry. apply take_drop.
      - intros E. apply (f_equal zlen) in E. rewrite zlen_drop in E by lia. change (zlen (@nil Z)) with 0 in E. lia. }
    apply Hq0. apply (head_stop_at_end h d); [exact (is_head_shape h Hh)|exact Hq|lia|exact Hn].
  - eauto.
  - exfalso. rewrite Hst, zlen_app in Hl. pose proof (zlen_nonneg body). lia.
Qed.
Print Assumptions head_reader_limit.
Example head_reader_limit_case : is_head ex_head /\ 0 <= 10 < zlen ex_head.
Proof. split; [exact ex_head_ok|]. vm_compute. split; congruence. Qed.

(** A connection that ends inside a head never yields a head. *)
Theorem head_reader_truncated :
  forall p q t max, is_head (p ++ q) -> q <> [] -> nonempty_chunks (t_chunks t) -> t_stream t = p -> 0 <= max ->
  exists e t1, read_head t max = (Err e, t1).
Proof.
  intros p q t max Hh Hq Hne Hst Hm.
  destruct (read_head_any t max Hne Hm) as (x & t1 & Hr & Hx).
  destruct Hx as [(d & -> & Hd & Hs & Hn)|[(-> & d & Hs & Hd)|(-> & _ & Hl)]]; [|eauto|eauto].
  exfalso. assert (t_stream t1 ++ q = []) as E.
  { apply (head_stop_at_end (p ++ q) d); [exact (is_head_shape _ Hh)| |lia|exact Hn]. rewrite <- Hst, Hs, <- app_assoc. reflexivity. }
  apply app_eq_nil in E as [_ E]. contradiction.
Qed.
Print Assumptions head_reader_truncated.
Example head_reader_truncated_case : is_head (take 20 ex_head ++ drop 20 ex_head) /\ drop 20 ex_head <> [].
Proof. split; [exact ex_head_ok|discriminate]. Qed.

(** On arbitrary bytes: never a read outside the buffer, never more than [max]
    bytes, and what is returned is a prefix of the stream. *)
Theorem head_reader_total :
  forall t max, nonempty_chunks (t_chunks t) -> 0 <= max ->
  exists x t1, read_head t max = (x, t1) /\
    ((exists d, x = Ok d /\ 4 <= zlen d <= max /\ t_stream t = d ++ t_stream t1) \/ exists e, x = Err e).
Proof.
  intros t max Hne Hm. destruct (read_head_any t max Hne Hm) as (x & t1 & Hr & Hx). exists x, t1. split; [exact Hr|].
  destruct Hx as [(d & -> & Hd & Hs & Hn)|[(-> & _)|(-> & _)]]; [left; eauto|right; eauto|right; eauto].
Qed.
Print Assumptions head_reader_total.
(** Garbage without an end, cut short: an error; an end within the limit: the
    bytes up to it, though they are no request. *)
Example head_reader_total_case :
  fst (read_head (mktr [[0; 255; 13]; [10; 7]] (-5)) 2048) = Err (-5) /\
  fst (read_head (mktr [[0; 255; 13]; [10; 13; 10; 7]] (-5)) 2048) = Ok [0; 255; 13; 10; 13; 10].
Proof. split; vm_compute; reflexivity. Qed.

(** Refuted: that only a blank line ends a head when lines end with a bare LF.
    The reader stops one character after a newline, in the middle of the head. *)
Theorem head_reader_bare_lf_refuted :
  exists t h rest, t_stream t = h ++ rest /\ nonempty_chunks (t_chunks t) /\ fst (read_head t 2048) = Ok h /\
    (* what is left still holds a header line and the blank line *)
    rest = str "b: c" ++ [10; 10] /\ ~ In 13 (t_stream t).
Proof.
  exists (mktr [str "GET /1 HTTP/1.1" ++ [10] ++ str "a" ++ [10] ++ str "b: c" ++ [10; 10]] (-5)).
  exists (str "GET /1 HTTP/1.1" ++ [10] ++ str "a" ++ [10]), (str "b: c" ++ [10; 10]).
  split; [reflexivity|]. split; [constructor; [discriminate|constructor]|]. split; [vm_compute; reflexivity|].
  split; [reflexivity|]. apply notin_lit. reflexivity.
Qed.
Print Assumptions head_reader_bare_lf_refuted.

(** * Chunked bodies (C26, C27, C55) *)

(** Buffers written one after another, then an empty one, form one complete
    chunked body with the buffers' concatenation as its content. *)
Theorem chunked_writer :
  forall reason h s ds, hr_chunked h = true -> sk_room s = None ->
    Forall (fun d => d <> [] /\ zlen d < 2 ^ 64) ds ->
  exists h1 s1 wire, hr_writes reason h s (ds ++ [[]]) = (Ok tt, h1, s1) /\
    sk_out s1 = sk_out s ++ (if hr_sent h then [] else response_head reason h) ++ wire /\
    forall rest, chunked (wire ++ rest) (concat ds) rest.
Proof.
  intros reason h s ds Hc Hr Hd. rewrite hr_writes_none; [|exact Hr|destruct ds; discriminate].
  rewrite Hc. eexists _, _, (flat_map (piece true) (ds ++ [[]])). split; [reflexivity|]. split; [reflexivity|].
  intros rest. rewrite flat_map_app, <- app_assoc. rewrite <- (app_nil_r (concat ds)).
  change (flat_map (piece true) ds) with (flat_map enc ds).
  apply enc_chunked; [exact Hd|]. change (flat_map (piece true) [[]]) with (enc [] ++ []).
  rewrite app_nil_r. apply enc_nil_chunked.
Qed.
Print Assumptions chunked_writer.
Definition ex_rsp : hrsp := mkhr 200 false (-1) true [(str "A", str "b")].
Example chunked_writer_case :
  hr_chunked ex_rsp = true /\ Forall (fun d => d <> [] /\ zlen d < 2 ^ 64) [str "hello "; str "world"].
Proof. split; [reflexivity|]. constructor; [|constructor; [|constructor]]; (split; [discriminate|reflexivity]). Qed.

(** Both readers decode every conforming chunked body, for every partition into
    transport reads and every sequence of caller buffers; end of body is
    reported exactly after the last byte and nothing beyond it is consumed. *)
Theorem chunked_reader :
  forall data sizes b t body rest, data = rq_data \/ data = up_data ->
    hb_chunked b = true -> hb_eof b = false -> hb_left b = 0 ->
    nonempty_chunks (t_chunks t) -> chunked (t_stream t) body rest -> Forall (fun n => 0 < n) sizes ->
  exists ds e b2 t2 more, hb_run data b t sizes = (ds, e, b2, t2) /\ body = concat ds ++ more /\
    (e = Ok tt \/ e = Err ERROR_HTTP_RES_EOF /\ more = [] /\ t_stream t2 = rest) /\
    (zlen body + 1 < zlen sizes -> e = Err ERROR_HTTP_RES_EOF).
Proof.
  intros data sizes b t body rest Hdata Hc He Hl Hne Hch Hs.
  assert (Hok : data_ok data) by (destruct Hdata as [-> | ->]; [exact rq_data_ok|exact up_data_ok]).
  assert (Hinv : ch_inv b t body rest) by (split; [exact Hc|split; [exact He|split; [exact Hne|left; auto]]]).
  destruct (hb_run_chunked data Hok sizes b t body rest Hs (or_introl Hinv)) as (ds & e & b2 & t2 & more & A & B & C & D).
  exists ds, e, b2, t2, more. split; [exact A|]. split; [exact B|]. split; [exact C|]. intros Hz. apply D; assumption.
Qed.
Print Assumptions chunked_reader.
(** Hexadecimal digits of either case and an extension, in three reads. *)
Example chunked_reader_case :
  fst (fst (hb_run up_data (hb_new true (-1)) (mktr [str "A;x"; [13; 10] ++ str "0123456"; str "789" ++ [13; 10] ++ str "0" ++ [13; 10; 13; 10]] (-5)) [4; 100; 9; 9])) =
    ([str "0123"; str "456789"; []], Err ERROR_HTTP_RES_EOF).
Proof. vm_compute. reflexivity. Qed.

(** Both ends together: what the reader delivers is what was written. *)
Theorem chunked_identity :
  forall reason h s ds data sizes t rest,
    hr_chunked h = true -> hr_sent h = true -> sk_room s = None -> sk_out s = [] ->
    Forall (fun d => d <> [] /\ zlen d < 2 ^ 64) ds -> data = rq_data \/ data = up_data ->
    nonempty_chunks (t_chunks t) -> t_stream t = sk_out (snd (hr_writes reason h s (ds ++ [[]]))) ++ rest ->
    Forall (fun n => 0 < n) sizes -> zlen (concat ds) + 1 < zlen sizes ->
  exists out b2 t2, hb_run data (hb_new true (-1)) t sizes = (out, Err ERROR_HTTP_RES_EOF, b2, t2) /\
    concat out = concat ds /\ t_stream t2 = rest.
Proof.
  intros reason h s ds data sizes t rest Hc Hsent Hr Ho Hd Hdata Hne Hst Hs Hz.
  destruct (chunked_writer reason h s ds Hc Hr Hd) as (h1 & s1 & wire & Hw & Hout & Hch).
  rewrite Hw in Hst. cbn [snd] in Hst. rewrite Hout, Ho, Hsent in Hst. cbn [app] in Hst.
  specialize (Hch rest). rewrite <- Hst in Hch.
  destruct (chunked_reader data sizes (hb_new true (-1)) t (concat ds) rest Hdata) as (out & e & b2 & t2 & more & A & B & C & D);
    try reflexivity; try assumption.
  specialize (D Hz). subst e. destruct C as [C|(_ & -> & C)]; [discriminate|].
  rewrite app_nil_r in B. exists out, b2, t2. auto.
Qed.
Print Assumptions chunked_identity.
Example chunked_identity_case :
  let h := mkhr 200 true (-1) true [] in
  let t := mktr [str "5"; [13; 10] ++ str "hel"; str "lo" ++ [13]; [10] ++ str "0"; [13; 10; 13; 10] ++ str "next"] (-5) in
  t_stream t = sk_out (snd (hr_writes (fun _ => []) h (mksk [] None (-1)) ([str "hello"] ++ [[]]))) ++ str "next" /\
  fst (fst (hb_run rq_data (hb_new true (-1)) t [2; 2; 100; 7; 7; 7; 7; 7])) =
    ([str "he"; str "l"; str "lo"; []], Err ERROR_HTTP_RES_EOF) /\
  fst (fst (hb_run up_data (hb_new true (-1)) t [2; 2; 100; 7; 7; 7; 7; 7])) =
    ([str "he"; str "ll"; str "o"; []], Err ERROR_HTTP_RES_EOF).
Proof. vm_compute. auto. Qed.

(** When the peer stops accepting data, what was sent is a prefix of the
    complete encoding and the writer reports an error. *)
Theorem chunked_writer_failure :
  forall reason h s ds, hr_sent h = true -> hr_chunked h = true -> Forall (fun d => d <> [] /\ zlen d < 2 ^ 64) ds ->
  exists r h1 s1 sent unsent, hr_writes reason h s (ds ++ [[]]) = (r, h1, s1) /\ sk_out s1 = sk_out s ++ sent /\
    (forall rest, chunked (sent ++ unsent ++ rest) (concat ds) rest) /\
    (r = Ok tt /\ unsent = [] \/ exists e, r = Err e).
Proof.
  intros reason h s ds Hs Hc Hd.
  destruct (hr_writes_any reason (ds ++ [[]]) h s Hs) as (r & h1 & s1 & p & q & A & B & C & D).
  exists r, h1, s1, p, q. split; [exact A|]. split; [exact B|]. split; [|destruct D as [[-> ->]|D]; auto].
  intros rest. rewrite app_assoc, C, Hc. rewrite flat_map_app, <- app_assoc. rewrite <- (app_nil_r (concat ds)).
  change (flat_map (piece true) ds) with (flat_map enc ds).
  apply enc_chunked; [exact Hd|]. change (flat_map (piece true) [[]]) with (enc [] ++ []).
  rewrite app_nil_r. apply enc_nil_chunked.
Qed.
Print Assumptions chunked_writer_failure.
Example chunked_writer_failure_case :
  let h := mkhr 200 true (-1) true [] in
  fst (fst (hr_writes (fun _ => []) h (mksk [] (Some 2%nat) (-1)) ([str "hello"] ++ [[]]))) = Err (-1).
Proof. vm_compute. reflexivity. Qed.

(** An empty buffer between others ends the body there: every reader of the
    message sees only what came before; the rest is outside the message. *)
Theorem chunked_empty_write_ends_body :
  forall reason h s ds1 ds2, hr_chunked h = true -> sk_room s = None ->
    Forall (fun d => d <> [] /\ zlen d < 2 ^ 64) ds1 -> ds2 <> [] ->
  exists h1 s1 w1 w2, hr_writes reason h s (ds1 ++ [[]] ++ ds2) = (Ok tt, h1, s1) /\
    sk_out s1 = sk_out s ++ (if hr_sent h then [] else response_head reason h) ++ w1 ++ w2 /\ w2 <> [] /\
    (forall more, chunked (w1 ++ w2 ++ more) (concat ds1) (w2 ++ more)) /\
    (forall more body rest, chunked (w1 ++ w2 ++ more) body rest -> body = concat ds1 /\ rest = w2 ++ more).
Proof.
  intros reason h s ds1 ds2 Hc Hr Hd Hn.
  rewrite hr_writes_none; [|exact Hr|destruct ds1; discriminate]. rewrite Hc.
  assert (Hch : forall more, chunked ((flat_map enc ds1 ++ enc []) ++ flat_map enc ds2 ++ more) (concat ds1) (flat_map enc ds2 ++ more)).
  { intros more. rewrite <- app_assoc. rewrite <- (app_nil_r (concat ds1)). apply enc_chunked; [exact Hd|]. apply enc_nil_chunked. }
  eexists _, _, (flat_map enc ds1 ++ enc []), (flat_map enc ds2). split; [reflexivity|].
  split; [|split; [|split]].
  - cbn [sk_out]. do 2 f_equal. rewrite !flat_map_app, <- app_assoc. reflexivity.
  - destruct ds2 as [|d ds2]; [congruence|]. cbn [flat_map]. unfold enc at 1. intros E.
    apply app_eq_nil in E as [E _]. apply app_eq_nil in E as [E _]. apply (hexs_nonempty (zlen d)) in E; [exact E|apply zlen_nonneg].
  - exact Hch.
  - intros more body rest H. eapply chunked_unique; [apply Hch|exact H].
Qed.
Print Assumptions chunked_empty_write_ends_body.
Example chunked_empty_write_case :
  let h := mkhr 200 true (-1) true [] in
  fst (fst (hr_writes (fun _ => []) h (mksk [] None (-1)) ([str "ab"] ++ [[]] ++ [str "c"]))) = Ok tt /\
  fst (fst (hb_run rq_data (hb_new true (-1)) (mktr [sk_out (snd (hr_writes (fun _ => []) h (mksk [] None (-1)) ([str "ab"] ++ [[]] ++ [str "c"])))] (-5)) [9; 9; 9])) =
    ([str "ab"; []], Err ERROR_HTTP_RES_EOF).
Proof. split; vm_compute; reflexivity. Qed.

(** A chunk size that is no number at all is taken as the end of the body. *)
Theorem chunked_bad_size_ends_body :
  forall data b t s rest size, data = rq_data \/ data = up_data ->
    hb_chunked b = true -> hb_eof b = false -> hb_left b = 0 -> 0 < size ->
    plain s -> zlen s <= 31 -> no_number s ->
    nonempty_chunks (t_chunks t) -> t_stream t = s ++ [13; 10] ++ [13; 10] ++ rest ->
  exists b1 t1, hb_read data b t size = (Ok [], b1, t1) /\ t_stream t1 = rest /\
    forall n, hb_read data b1 t1 n = (Err ERROR_HTTP_RES_EOF, b1, t1).
Proof.
  intros data b t s rest size Hdata Hc He Hl Hs Hp Hz Hn Hne Hst.
  assert (Hok : data_ok data) by (destruct Hdata as [-> | ->]; [exact rq_data_ok|exact up_data_ok]).
  destruct (bad_size_ends data b t s rest size Hok Hp Hz (no_number_zero s Hn) Hc He Hl Hs Hne Hst) as (b1 & t1 & A & B & C).
  exists b1, t1. split; [exact A|]. split; [exact C|]. intros n. unfold hb_read. rewrite B. reflexivity.
Qed.
Print Assumptions chunked_bad_size_ends_body.
Example chunked_bad_size_case : plain (str "garbage") /\ zlen (str "garbage") <= 31 /\ no_number (str "garbage").
Proof.
  split; [apply plain_lit; reflexivity|]. split; [vm_compute; discriminate|]. split; [|vm_compute; lia].
  change (Z.of_N (Ascii.N_of_ascii "g"%char)) with 103. intros v H. unfold hex_value in H. lia.
Qed.

(** On arbitrary bytes both readers either deliver at most what was asked for
    or report an error: no read outside the size line, no overrun of the
    caller's buffer, no endless loop. *)
Theorem body_reader_safe :
  forall data sizes b t, data = rq_data \/ data = up_data ->
    nonempty_chunks (t_chunks t) -> 0 <= hb_left b < 2 ^ 64 -> Forall (fun n => 0 <= n) sizes ->
  exists ds e b2 t2, hb_run data b t sizes = (ds, e, b2, t2) /\
    Forall2 (fun d n => zlen d <= n) ds (firstn (length ds) sizes) /\ (e = Ok tt \/ exists c, e = Err c).
Proof.
  intros data sizes b t Hdata. apply hb_run_any. destruct Hdata as [-> | ->].
  - intros b0 t0 n0. apply rq_data_any.
  - intros b0 t0 n0. apply up_data_any.
Qed.
Print Assumptions body_reader_safe.
(** A size line that never ends, and a chunk that is cut off. *)
Example body_reader_safe_case :
  (exists c, snd (fst (fst (hb_run rq_data (hb_new true (-1)) (mktr [repeat 48 40] (-5)) [9; 9]))) = Err c) /\
  (exists c, snd (fst (fst (hb_run up_data (hb_new true (-1)) (mktr [str "ff" ++ [13; 10; 1; 2]] (-5)) [9; 9; 9]))) = Err c).
Proof. split; eexists; vm_compute; reflexivity. Qed.

(** * Bodies with a length (C28, C56) *)
Theorem fixed_body_exact :
  forall data sizes t body rest, 0 < zlen body < 2 ^ 31 -> nonempty_chunks (t_chunks t) -> t_stream t = body ++ rest ->
    Forall (fun k => 0 < k) sizes ->
  exists ds e b2 t2 more, hb_run data (hb_new false (zlen body)) t sizes = (ds, e, b2, t2) /\ body = concat ds ++ more /\
    (e = Ok tt \/ e = Err ERROR_HTTP_RES_EOF /\ more = [] /\ t_stream t2 = rest) /\
    (zlen body < zlen sizes -> e = Err ERROR_HTTP_RES_EOF).
Proof.
  intros data sizes t body rest Hb Hne Hst Hs. apply hb_run_fixed with (n := zlen body); [exact Hs|].
  unfold fx_inv. cbn. repeat split; try lia; assumption.
Qed.
Print Assumptions fixed_body_exact.
Example fixed_body_case :
  hb_run rq_data (hb_new false 5) (mktr [str "he"; str "llox"] (-5)) [1; 9; 9; 9] =
  ([str "h"; str "e"; str "llo"], Err ERROR_HTTP_RES_EOF, mkhb false 5 true 5 0 0, mktr [str "x"] (-5)).
Proof. vm_compute. reflexivity. Qed.

(** A declared length of zero is reported as a full buffer, not as the end of
    the body. *)
Theorem zero_length_body_fails :
  forall data t size, 0 <= size -> hb_read data (hb_new false 0) t size = (Err ERROR_IO_BUFFER_FULL, hb_new false 0, t).
Proof.
  intros data t size Hs. unfold hb_read, hb_new. cbn [hb_eof hb_chunked hb_cl hb_nread].
  change (0 <=? 0) with true. cbv iota. change (u64 (0 - 0)) with 0. rewrite Z.min_l by lia. reflexivity.
Qed.
Print Assumptions zero_length_body_fails.
Example zero_length_body_case :
  fst (fst (hb_run up_data (hb_new false 0) (mktr [str "next"] (-5)) [9])) = ([], Err ERROR_IO_BUFFER_FULL).
Proof. vm_compute. reflexivity. Qed.

(** * The request sent upstream (C31) *)
Theorem forwarded_request :
  forall m u host data hs, plain m -> ~ In 32 m -> plain u -> ~ In 32 u -> plain host -> Forall field_wf hs ->
  exists fs, read_request (http_request m u host data hs) = Some (m, u, str "HTTP/1.1", fs, []) /\
    values_of (str "Host") fs = [host] /\
    (forall k, k <> str "Host" -> k <> str "Accept" -> k <> str "Content-Length" -> values_of k fs = values_of k hs) /\
    values_of (str "Content-Length") fs = values_of (str "Content-Length") hs ++ [decs (zlen data)] /\
    values_of (str "Accept") fs = values_of (str "Accept") hs ++ [str "*/"].
Proof.
  intros m u host data hs H1 H2 H3 H4 H5 H6. eexists. split; [apply read_request_ok; assumption|].
  assert (Hv : forall k, k <> str "Host" -> values_of k (filter not_host hs) = values_of k hs).
  { intros k Hk. apply values_filter. intros f Hf. unfold not_host in Hf.
    destruct (eqb_list (fst f) (str "Host")) eqn:E; [|discriminate]. apply eqb_list_spec in E. rewrite E.
    destruct (eqb_list (str "Host") k) eqn:E2; [|reflexivity]. apply eqb_list_spec in E2. congruence. }
  assert (Hne : forall a b : list Z, a <> b -> eqb_list a b = false).
  { intros a b Hab. destruct (eqb_list a b) eqn:E; [|reflexivity]. apply eqb_list_spec in E. contradiction. }
  change ((str "Host", host) :: ?x) with ([(str "Host", host)] ++ x).
  split; [|split; [|split]].
  - rewrite !values_of_app. change (values_of (str "Host") [(str "Host", host)]) with [host].
    assert (values_of (str "Host") (filter not_host hs) = []) as ->.
    { unfold values_of. clear. induction hs as [|f l IH]; [reflexivity|]. cbn [filter]. unfold not_host at 1.
      destruct (eqb_list (fst f) (str "Host")) eqn:E; cbn [negb filter]; [exact IH|]. rewrite E. exact IH. }
    reflexivity.
  - intros k Ha Hb Hc. rewrite !values_of_app, Hv by exact Ha. unfold values_of at 1 3. cbn [filter fst].
    rewrite !Hne by congruence. cbn [map app]. apply app_nil_r.
  - rewrite !values_of_app, Hv by discriminate. reflexivity.
  - rewrite !values_of_app, Hv by discriminate. reflexivity.
Qed.
Print Assumptions forwarded_request.
Example forwarded_request_case :
  Forall field_wf [(str "Host", str "a"); (str "X", str "y: z"); (str "Content-Length", str "7")] /\
  http_request (str "GET") (str "/a") (str "h") [] [(str "Host", str "a"); (str "X", str "y")] =
  str "GET /a HTTP/1.1" ++ [13; 10] ++ str "Host: h" ++ [13; 10] ++ str "X: y" ++ [13; 10] ++
  str "Accept: */" ++ [13; 10] ++ str "Content-Length: 0" ++ [13; 10; 13; 10].
Proof.
  split; [|vm_compute; reflexivity].
  constructor; [|constructor; [|constructor; [|constructor]]];
    (split; [apply plain_lit; reflexivity|split; [apply plain_lit; reflexivity|apply notin_lit; reflexivity]]).
Qed.

(** The text sent depends on the body only through its size. *)
Theorem forwarded_request_ignores_body :
  forall m u host d1 d2 hs, zlen d1 = zlen d2 -> http_request m u host d1 hs = http_request m u host d2 hs.
Proof. intros m u host d1 d2 hs H. unfold http_request. rewrite H. reflexivity. Qed.
Print Assumptions forwarded_request_ignores_body.

(** * Phase chain (C36) *)
Theorem chain_runs_in_order :
  forall S (hs : list (S -> res Z * S)) s s1, all_continue hs s s1 -> chain hs s 0 = (Ok 0, s1).
Proof. intros. apply chain_all. assumption. Qed.
Print Assumptions chain_runs_in_order.

(** The first handler that does not answer 'continue' is the last one run:
    'no continue' is a success, anything else is the chain's result. *)
Theorem chain_stops_at_first :
  forall S (pre post : list (S -> res Z * S)) h s s1 s2 r r0,
    all_continue pre s s1 -> h s1 = (Ok r, s2) -> r <> 0 ->
    chain (pre ++ h :: post) s r0 = (Ok (if r =? 1 then 0 else r), s2).
Proof. intros. eapply chain_stop; eassumption. Qed.
Print Assumptions chain_stops_at_first.
Example chain_case :
  let tick n r (s : list Z) := (Ok r, s ++ [n]) in
  all_continue [tick 1 0; tick 2 0] [] [1; 2] /\
  chain [tick 1 0; tick 2 0; tick 3 (-9); tick 4 0] [] 0 = (Ok (-9), [1; 2; 3]).
Proof. split; [|reflexivity]. repeat (econstructor; [reflexivity|]). constructor. Qed.

(** A head of which the parser accepts no byte passes the parse phase as
    'continue': the first request crashes the connection's coroutine ... *)
Theorem unparsed_first_request_crashes :
  forall exec serve c h rest, is_head h -> zlen h <= MAX_HEADER -> nonempty_chunks (t_chunks (hc_in c)) ->
    t_stream (hc_in c) = h ++ rest -> exec h = 0 -> hc_ctx c = None ->
  exists c1, chain (http_server exec serve) c 0 = (UB, c1) /\ hc_served c1 = hc_served c.
Proof.
  intros exec serve c h rest Hh Hm Hne Hst Hex Hc. cbn [http_server chain]. unfold parse_phase.
  destruct (read_head_ok h rest (hc_in c) MAX_HEADER (is_head_shape h Hh) Hne Hst Hm) as (t1 & -> & _).
  rewrite Hex, Hc. cbn. eexists. split; reflexivity.
Qed.
Print Assumptions unparsed_first_request_crashes.
(** ... and a later one makes the server answer the previous request again. *)
Theorem unparsed_request_replays_previous :
  forall exec serve c h rest old, is_head h -> zlen h <= MAX_HEADER -> nonempty_chunks (t_chunks (hc_in c)) ->
    t_stream (hc_in c) = h ++ rest -> exec h = 0 -> hc_ctx c = Some old -> serve old = 1 ->
  exists c1, chain (http_server exec serve) c 0 = (Ok 0, c1) /\ hc_served c1 = hc_served c ++ [old] /\
    t_stream (hc_in c1) = rest.
Proof.
  intros exec serve c h rest old Hh Hm Hne Hst Hex Hc Hs. cbn [http_server chain]. unfold parse_phase.
  destruct (read_head_ok h rest (hc_in c) MAX_HEADER (is_head_shape h Hh) Hne Hst Hm) as (t1 & -> & H1 & _).
  rewrite Hex, Hc. cbn. rewrite Hs. eexists. split; [reflexivity|]. split; [reflexivity|exact H1].
Qed.
Print Assumptions unparsed_request_replays_previous.
Definition ex_bad_head : list Z := str "#" ++ str "garbage" ++ [13; 10; 13; 10].
Example unparsed_case :
  let exec h := match h with c :: _ => if c =? 35 then 0 else zlen h | [] => 0 end in
  is_head ex_bad_head /\ exec ex_bad_head = 0 /\ 0 < exec ex_head /\
  hc_served (snd (conn_loop 9 (http_server exec (fun _ => 1)) (mkhc (mktr [ex_head; ex_bad_head] (-5)) None []))) = [ex_head; ex_head].
Proof.
  split; [|vm_compute; auto]. exists [str "#garbage"]. split; [discriminate|]. split; [|reflexivity].
  constructor; [split; [discriminate|apply plain_lit; reflexivity]|constructor].
Qed.

(** * Requests on one connection (C59) *)

(** Pipelined heads are served one by one, in order. *)
Theorem requests_served_in_order :
  forall exec serve hs c,
    Forall (fun h => is_head h /\ zlen h <= MAX_HEADER /\ 0 < exec h /\ (serve h = 0 \/ serve h = 1)) hs ->
    nonempty_chunks (t_chunks (hc_in c)) -> t_stream (hc_in c) = concat hs -> t_err (hc_in c) < -1 ->
  exists r c1, conn_loop (S (length hs)) (http_server exec serve) c = (Ok r, c1) /\ hc_served c1 = hc_served c ++ hs /\ r <> 0.
Proof. intros. apply conn_loop_heads; try assumption; lia. Qed.
Print Assumptions requests_served_in_order.
Example requests_served_case :
  let exec (h : list Z) := zlen h in
  let c := mkhc (mktr [take 9 ex_head; drop 9 ex_head ++ take 20 ex_bad_head; drop 20 ex_bad_head ++ ex_head] (-5)) None [] in
  t_stream (hc_in c) = concat [ex_head; ex_bad_head; ex_head] /\
  hc_served (snd (conn_loop 4 (http_server exec (fun _ => 1)) c)) = [ex_head; ex_bad_head; ex_head].
Proof. split; vm_compute; reflexivity. Qed.

(** The body of a request is not consumed: if it looks like a request head it
    is served as the client's next request. *)
Theorem request_body_served_as_request :
  forall exec serve h1 body c m u v fs,
    is_head h1 -> zlen h1 <= MAX_HEADER -> 0 < exec h1 -> serve h1 = 1 ->
    read_request h1 = Some (m, u, v, fs, []) -> In (str "Content-Length", decs (zlen body)) fs ->
    is_head body -> zlen body <= MAX_HEADER -> 0 < exec body -> serve body = 1 ->
    nonempty_chunks (t_chunks (hc_in c)) -> t_stream (hc_in c) = h1 ++ body -> t_err (hc_in c) < -1 -> hc_served c = [] ->
  exists r c1, conn_loop 3 (http_server exec serve) c = (Ok r, c1) /\ hc_served c1 = [h1; body].
Proof.
  intros exec serve h1 body c m u v fs A1 A2 A3 A4 _ _ B1 B2 B3 B4 Hne Hst He Hs.
  destruct (conn_loop_heads exec serve [h1; body] 3 c) as (r & c1 & X & Y & _); try assumption; try lia.
  - constructor; [auto|constructor; [auto|constructor]].
  - cbn [concat]. rewrite app_nil_r. exact Hst.
  - cbn. lia.
  - exists r, c1. split; [exact X|]. rewrite Y, Hs. reflexivity.
Qed.
Print Assumptions request_body_served_as_request.
Definition ex_post : list Z := str "POST /a HTTP/1.1" ++ [13; 10] ++ str "Content-Length: 28" ++ [13; 10; 13; 10].
Example request_body_case :
  is_head ex_post /\ read_request ex_post =
    Some (str "POST", str "/a", str "HTTP/1.1", [(str "Content-Length", decs (zlen ex_head))], []) /\
  hc_served (snd (conn_loop 3 (http_server (fun _ => 1) (fun _ => 1)) (mkhc (mktr [ex_post ++ ex_head] (-5)) None []))) =
    [ex_post; ex_head].
Proof.
  split; [|vm_compute; auto]. exists [str "POST /a HTTP/1.1"; str "Content-Length: 28"]. split; [discriminate|]. split; [|reflexivity].
  constructor; [|constructor; [|constructor]]; (split; [discriminate|apply plain_lit; reflexivity]).
Qed.

(** * Proxy (C56, C57, C58, C60, C61) *)

(** Response with a length: the client receives one head that announces the
    length and then the body, byte for byte; the upstream got the head of the
    request and no body. *)
Theorem proxy_fixed_body :
  forall reason lib rq up ups client head parsed st hd body rest,
    is_head head -> zlen head <= MAX_HEADER -> nonempty_chunks (t_chunks up) -> t_stream up = head ++ body ++ rest ->
    lib head = (parsed, rsp_of_lib st (zlen body) false hd) -> 0 < parsed -> sk_room ups = None -> sk_room client = None ->
    0 < zlen body < 2 ^ 31 -> 0 <= st -> plain (reason st) -> Forall field_wf hd ->
  exists up1 ups1 c1 rh fs, proxy reason lib rq up ups client = (Ok 1, up1, ups1, c1) /\
    t_stream up1 = rest /\
    sk_out ups1 = sk_out ups ++ http_request (pq_method rq) (pq_url rq) (pq_host rq) [] (pq_headers rq) /\
    sk_out c1 = sk_out client ++ rh ++ body /\
    read_message (rh ++ body) = Some (str "HTTP/1.1 " ++ decs st ++ str " " ++ reason st, fs, body) /\
    values_of (str "Content-Length") fs = [decs (zlen body)].
Proof.
  intros reason lib rq up ups client head parsed st hd body rest Hh Hm Hne Hst Hlib Hp Hu Hc Hb Hs0 Hre Hwf.
  destruct (proxy_start reason lib rq up ups client head parsed _ (body ++ rest) Hh Hm Hne Hst Hlib Hp Hu Hc) as (up1 & U1 & U2 & ->).
  unfold rsp_of_lib. cbn [ri_status ri_cl ri_chunked ri_headers].
  assert (s32 (zlen body) = zlen body) as ->.
  { unfold s32. rewrite Z.mod_small by lia. lia. }
  set (h1 := mkhr st true (zlen body) false hd). set (h0 := mkhr st false (zlen body) false hd).
  destruct (relay_fixed (S (S (length (body ++ rest)))) reason (zlen body) (hb_new false (zlen body)) up1 h1
     (mksk (sk_out client ++ response_head reason h0) None (sk_err client)) body rest) as (up2 & s2 & -> & A & B);
    try reflexivity.
  { unfold fx_inv. cbn. repeat split; try lia; assumption. }
  { rewrite app_length. unfold zlen. lia. }
  eexists _, _, s2, (response_head reason h0), (rsp_fields h0). rewrite Z.eqb_refl.
  split; [reflexivity|]. split; [exact A|]. split; [reflexivity|]. split; [rewrite B; cbn [sk_out]; rewrite <- app_assoc; reflexivity|].
  split; [apply response_head_message; assumption|]. apply response_cl; [reflexivity|cbn; lia].
Qed.
Print Assumptions proxy_fixed_body.
Definition ex_rhead : list Z := str "HTTP/1.1 200 OK" ++ [13; 10] ++ str "X: y" ++ [13; 10; 13; 10].
Definition ex_prq : proxy_req := mkpq (str "GET") (str "/a") (str "up") [].
Lemma ex_rhead_ok : is_head ex_rhead.
Proof.
  exists [str "HTTP/1.1 200 OK"; str "X: y"]. split; [discriminate|]. split; [|reflexivity].
  constructor; [|constructor; [|constructor]]; (split; [discriminate|apply plain_lit; reflexivity]).
Qed.
Example proxy_fixed_case :
  is_head ex_rhead /\ field_wf (str "X", str "y") /\
  sk_out (snd (proxy (fun _ => str "OK") (fun _ => (1, rsp_of_lib 200 5 false [(str "X", str "y")])) ex_prq
    (mktr [take 7 ex_rhead; drop 7 ex_rhead ++ str "hello"] (-5)) (mksk [] None (-5)) (mksk [] None (-5)))) =
  str "HTTP/1.1 200 OK" ++ [13; 10] ++ str "Content-Length: 5" ++ [13; 10] ++ str "X: y" ++ [13; 10] ++
  str "Server: sps" ++ [13; 10; 13; 10] ++ str "hello".
Proof.
  split; [exact ex_rhead_ok|]. split; [|vm_compute; reflexivity].
  split; [apply plain_lit; reflexivity|split; [apply plain_lit; reflexivity|apply notin_lit; reflexivity]].
Qed.

(** A declared length of 2 GiB or more is cut to its low 32 bits: the client is
    told the smaller length and receives only that part. *)
Theorem proxy_large_length_truncated :
  forall reason lib rq up ups client head parsed st hd len body rest,
    is_head head -> zlen head <= MAX_HEADER -> nonempty_chunks (t_chunks up) -> t_stream up = head ++ body ++ rest ->
    lib head = (parsed, rsp_of_lib st len false hd) -> 0 < parsed -> sk_room ups = None -> sk_room client = None ->
    2 ^ 32 <= len < 2 ^ 64 -> zlen body = len mod 2 ^ 32 -> 0 < zlen body < 2 ^ 31 ->
    0 <= st -> plain (reason st) -> Forall field_wf hd ->
  exists up1 ups1 c1 rh fs, proxy reason lib rq up ups client = (Ok 1, up1, ups1, c1) /\
    t_stream up1 = rest /\ sk_out c1 = sk_out client ++ rh ++ body /\
    read_message (rh ++ body) = Some (str "HTTP/1.1 " ++ decs st ++ str " " ++ reason st, fs, body) /\
    values_of (str "Content-Length") fs = [decs (zlen body)] /\ zlen body < len.
Proof.
  intros reason lib rq up ups client head parsed st hd len body rest Hh Hm Hne Hst Hlib Hp Hu Hc Hl Hb Hb2 Hs0 Hre Hwf.
  assert (E : rsp_of_lib st len false hd = rsp_of_lib st (zlen body) false hd).
  { unfold rsp_of_lib. f_equal. rewrite Hb. unfold s32. rewrite Z.add_mod_idemp_l by lia. reflexivity. }
  rewrite E in Hlib.
  destruct (proxy_fixed_body reason lib rq up ups client head parsed st hd body rest) as (up1 & ups1 & c1 & rh & fs & A & B & _ & C & D & F);
    try assumption.
  exists up1, ups1, c1, rh, fs. repeat (split; [assumption|]). lia.
Qed.
Print Assumptions proxy_large_length_truncated.
Example proxy_large_case : 2 ^ 32 <= 2 ^ 32 + 5 < 2 ^ 64 /\ zlen (str "hello") = (2 ^ 32 + 5) mod 2 ^ 32.
Proof. vm_compute. repeat split; congruence. Qed.

(** Chunked response: the client receives a complete chunked body with the same
    content. *)
Theorem proxy_chunked_body :
  forall reason lib rq up ups client head parsed st len hd wire body rest,
    is_head head -> zlen head <= MAX_HEADER -> nonempty_chunks (t_chunks up) -> t_stream up = head ++ wire ->
    chunked wire body rest ->
    lib head = (parsed, rsp_of_lib st len true hd) -> 0 < parsed -> sk_room ups = None -> sk_room client = None ->
    0 <= st -> plain (reason st) -> Forall field_wf hd ->
  exists up1 ups1 c1 rh out fs, proxy reason lib rq up ups client = (Ok 1, up1, ups1, c1) /\
    t_stream up1 = rest /\ sk_out c1 = sk_out client ++ rh ++ out /\ (forall r, chunked (out ++ r) body r) /\
    read_message (rh ++ out) = Some (str "HTTP/1.1 " ++ decs st ++ str " " ++ reason st, fs, out) /\
    (* the upstream's own Transfer-Encoding field is repeated *)
    values_of (str "Transfer-Encoding") fs = str "chunked" :: values_of (str "Transfer-Encoding") hd.
Proof.
  intros reason lib rq up ups client head parsed st len hd wire body rest Hh Hm Hne Hst Hch Hlib Hp Hu Hc Hs0 Hre Hwf.
  destruct (proxy_start reason lib rq up ups client head parsed _ wire Hh Hm Hne Hst Hlib Hp Hu Hc) as (up1 & U1 & U2 & ->).
  unfold rsp_of_lib. cbn [ri_status ri_cl ri_chunked ri_headers].
  set (h1 := mkhr st true (s32 len) true hd). set (h0 := mkhr st false (s32 len) true hd).
  destruct (relay_chunked (S (S (length wire))) reason (hb_new true (s32 len)) up1 h1
     (mksk (sk_out client ++ response_head reason h0) None (sk_err client)) body rest) as (up2 & s2 & out & -> & A & B & C);
    try reflexivity.
  { split; [reflexivity|]. split; [reflexivity|]. split; [exact U2|]. left. rewrite U1. auto. }
  { enough (zlen body <= zlen wire) by (unfold zlen in *; lia). clear -Hch. induction Hch; rewrite ?zlen_app in *.
    - change (zlen (@nil Z)) with 0. pose proof (zlen_nonneg sz). pose proof (zlen_nonneg rest). change (zlen [13; 10]) with 2. lia.
    - pose proof (zlen_nonneg sz). change (zlen [13; 10]) with 2. lia. }
  eexists _, _, s2, (response_head reason h0), out, (rsp_fields h0). rewrite Z.eqb_refl.
  split; [reflexivity|]. split; [exact A|]. split; [rewrite B; cbn [sk_out]; rewrite <- app_assoc; reflexivity|].
  split; [exact C|]. split; [apply response_head_message; assumption|]. apply response_te. reflexivity.
Qed.
Print Assumptions proxy_chunked_body.
Example proxy_chunked_case :
  sk_out (snd (proxy (fun _ => str "OK") (fun _ => (1, rsp_of_lib 200 (2 ^ 64 - 1) true [(str "Transfer-Encoding", str "chunked")])) ex_prq
    (mktr [ex_rhead ++ str "3;x" ++ [13; 10] ++ str "abc" ++ [13; 10] ++ str "0" ++ [13; 10; 13; 10]] (-5))
    (mksk [] None (-5)) (mksk [] None (-5)))) =
  str "HTTP/1.1 200 OK" ++ [13; 10] ++ str "Transfer-Encoding: chunked" ++ [13; 10] ++ str "Transfer-Encoding: chunked" ++ [13; 10] ++
  str "Server: sps" ++ [13; 10; 13; 10] ++ str "3" ++ [13; 10] ++ str "abc" ++ [13; 10] ++ str "0" ++ [13; 10; 13; 10].
Proof. vm_compute. reflexivity. Qed.

(** A response with Content-Length 0: the head is relayed, then the request
    fails. *)
Theorem proxy_zero_length_fails :
  forall reason lib rq up ups client head parsed st hd rest,
    is_head head -> zlen head <= MAX_HEADER -> nonempty_chunks (t_chunks up) -> t_stream up = head ++ rest ->
    lib head = (parsed, rsp_of_lib st 0 false hd) -> 0 < parsed -> sk_room ups = None -> sk_room client = None ->
  exists up1 ups1 c1, proxy reason lib rq up ups client = (Err ERROR_IO_BUFFER_FULL, up1, ups1, c1) /\
    sk_out c1 = sk_out client ++ response_head reason (mkhr st false 0 false hd).
Proof.
  intros reason lib rq up ups client head parsed st hd rest Hh Hm Hne Hst Hlib Hp Hu Hc.
  destruct (proxy_start reason lib rq up ups client head parsed _ rest Hh Hm Hne Hst Hlib Hp Hu Hc) as (up1 & U1 & U2 & ->).
  unfold rsp_of_lib. cbn [ri_status ri_cl ri_chunked ri_headers]. change (s32 0) with 0.
  cbn [relay]. unfold up_read. rewrite zero_length_body_fails by lia.
  eexists _, _, _. split; reflexivity.
Qed.
Print Assumptions proxy_zero_length_fails.
Example proxy_zero_length_case :
  let r := proxy (fun _ => str "OK") (fun _ => (1, rsp_of_lib 200 0 false [])) ex_prq (mktr [ex_rhead] (-5)) (mksk [] None (-5)) (mksk [] None (-5)) in
  fst (fst (fst r)) = Err ERROR_IO_BUFFER_FULL /\
  sk_out (snd r) = str "HTTP/1.1 200 OK" ++ [13; 10] ++ str "Content-Length: 0" ++ [13; 10] ++ str "Server: sps" ++ [13; 10; 13; 10].
Proof. split; vm_compute; reflexivity. Qed.

(** A response head of which the parser accepts no byte crashes the proxy. *)
Theorem proxy_unparsed_response_crashes :
  forall reason lib rq up ups client head ri rest,
    is_head head -> zlen head <= MAX_HEADER -> nonempty_chunks (t_chunks up) -> t_stream up = head ++ rest ->
    lib head = (0, ri) -> sk_room ups = None ->
  exists up1 ups1, proxy reason lib rq up ups client = (UB, up1, ups1, client).
Proof.
  intros reason lib rq up ups client head ri rest Hh Hm Hne Hst Hlib Hu.
  destruct (read_head_ok head rest up MAX_HEADER (is_head_shape head Hh) Hne Hst Hm) as (t1 & Hr & _).
  unfold proxy. unfold sk_write at 1. rewrite Hu, http_request_nonempty. cbn [option_map]. rewrite Hr, Hlib. cbn. eauto.
Qed.
Print Assumptions proxy_unparsed_response_crashes.
Example proxy_unparsed_response_case :
  let r := proxy (fun _ => str "OK") (fun _ => (0, rsp_of_lib 0 0 false [])) ex_prq (mktr [ex_rhead; str "x"] (-5)) (mksk [] None (-5)) (mksk [] None (-5)) in
  fst (fst (fst r)) = UB /\ sk_out (snd r) = [].
Proof. split; vm_compute; reflexivity. Qed.
