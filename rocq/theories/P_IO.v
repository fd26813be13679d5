(** Properties C04, C05, C44: byte streams, text lines, full reads. *)
From Verif Require Import Base M_IO S_IO L_IO.

(** C04: a parser that acquires [n] bytes and consumes [k <= n] of them, any
    number of times, sees exactly the byte stream whatever the partition into
    reads; nothing is lost, repeated or reordered (the bytes still buffered
    followed by those not yet read are the unconsumed stream), no access leaves
    the buffer (no outcome is [UB]) and 'buffer full' is reported exactly when
    the request exceeds the capacity. *)
Theorem buffered_reader_sees_the_stream :
  forall fill t ops,
    zlen fill < 2 ^ 62 -> nonempty_chunks (t_chunks t) ->
    Forall (fun o => 0 <= snd o <= fst o) ops ->
    exists r1, br_run (br_new fill t) ops =
        (fst (spec_stream_run (zlen fill) (t_err t) (t_stream t) ops), r1) /\
      br_pending r1 ++ match br_io r1 with Some t1 => t_stream t1 | None => [] end =
        snd (spec_stream_run (zlen fill) (t_err t) (t_stream t) ops).
Proof. exact buffered_reader_chunking. Qed.
Print Assumptions buffered_reader_sees_the_stream.

(** A 4-byte buffer, a 7-byte stream in three pieces: the second request has to
    rewind; the last one exceeds what is left. *)
Example buffered_reader_nonvacuous :
  let t := mktr [[1; 2; 3]; [4; 5]; [6; 7]] ERROR_SOCKET_CLOSED in
  fst (br_run (br_new [0xAA; 0xAA; 0xAA; 0xAA] t) [(3, 2); (4, 4); (1, 0); (2, 1)]) =
    [Ok [1; 2]; Ok [3; 4; 5; 6]; Ok []; Err ERROR_SOCKET_CLOSED] /\
  fst (br_run (br_new [0; 0; 0; 0] t) [(5, 5)]) = [Err ERROR_IO_BUFFER_FULL] /\
  nonempty_chunks (t_chunks t) /\ t_stream t = [1; 2; 3; 4; 5; 6; 7].
Proof.
  cbv zeta. split; [vm_compute; reflexivity|]. split; [vm_compute; reflexivity|].
  split; [repeat constructor; discriminate|reflexivity].
Qed.

(** The partition cannot be observed: two partitions of the same stream give
    the same results. *)
Theorem buffered_reader_partition_irrelevant :
  forall fill t1 t2 ops,
    zlen fill < 2 ^ 62 -> nonempty_chunks (t_chunks t1) -> nonempty_chunks (t_chunks t2) ->
    concat (t_chunks t1) = concat (t_chunks t2) -> t_err t1 = t_err t2 ->
    Forall (fun o => 0 <= snd o <= fst o) ops ->
    fst (br_run (br_new fill t1) ops) = fst (br_run (br_new fill t2) ops).
Proof.
  intros fill t1 t2 ops Hf H1 H2 Hc He Ho.
  destruct (buffered_reader_chunking fill t1 ops Hf H1 Ho) as (r1 & -> & _).
  destruct (buffered_reader_chunking fill t2 ops Hf H2 Ho) as (r2 & -> & _).
  cbn [fst]. unfold t_stream. rewrite Hc, He. reflexivity.
Qed.
Print Assumptions buffered_reader_partition_irrelevant.
Example buffered_reader_partition_case :
  let ops := [(3, 2); (4, 4); (2, 1)] in
  fst (br_run (br_new [0; 0; 0; 0] (mktr [[1; 2; 3]; [4; 5]; [6]] (-5))) ops) = [Ok [1; 2]; Ok [3; 4; 5; 6]; Err (-5)] /\
  fst (br_run (br_new [0; 0; 0; 0] (mktr [[1]; [2; 3; 4; 5; 6]] (-5))) ops) = [Ok [1; 2]; Ok [3; 4; 5; 6]; Err (-5)].
Proof. split; vm_compute; reflexivity. Qed.

(** C05: reading lines yields the lines of the text in order, then end of
    file; the only deviation is a newline kept in the last line when it is the
    last byte of the text; the line counter counts the lines returned. *)
Theorem memory_reader_lines :
  forall text,
    mem_lines (S (length text)) (mem_new text) =
    (if ends_with_lf text then add_lf_to_last (lines_of text) else lines_of text,
     Err ERROR_IO_EOF,
     mkmem text (zlen text) (zlen (if ends_with_lf text then add_lf_to_last (lines_of text) else lines_of text))).
Proof. exact memory_lines. Qed.
Print Assumptions memory_reader_lines.

Example memory_reader_lines_ex :
  fst (fst (mem_lines 9 (mem_new [97; LF; LF; 98; 99]))) = [[97]; []; [98; 99]] /\
  lines_of [97; LF; LF; 98; 99; LF] = [[97]; []; [98; 99]].
Proof. split; vm_compute; reflexivity. Qed.

(** The lines of a text that ends with a newline are not returned faithfully. *)
Theorem memory_reader_last_newline_refuted :
  exists text, fst (fst (mem_lines (S (length text)) (mem_new text))) <> lines_of text.
Proof. exists [97; LF]. vm_compute. discriminate. Qed.
Print Assumptions memory_reader_last_newline_refuted.

(** Two successive writes to the memory writer do not append: the second one
    overwrites the first. *)
Theorem memory_writer_appends_refuted :
  exists a b m1 m2, zlen a + zlen b <= 4 /\
    mem_write (mem_new [0; 0; 0; 0]) a = Ok m1 /\ mem_write m1 b = Ok m2 /\
    take (zlen a + zlen b) (mem_buf m2) <> a ++ b.
Proof.
  exists [1; 2], [3; 4], (mkmem [1; 2; 0; 0] 0 0), (mkmem [3; 4; 0; 0] 0 0).
  repeat split; vm_compute; try reflexivity; discriminate.
Qed.
Print Assumptions memory_writer_appends_refuted.

(** One write replaces exactly its bytes from the position on, or is refused if
    they do not fit. *)
Theorem memory_writer_write : forall a b c p d, zlen b = zlen d -> zlen (a ++ b ++ c) < 2 ^ 32 ->
  p = zlen a ->
  mem_write (mkmem (a ++ b ++ c) p 0) d = Ok (mkmem (a ++ d ++ c) p 0) /\
  (forall e, zlen (b ++ c) < zlen e -> mem_write (mkmem (a ++ b ++ c) p 0) e = Err ERROR_MEM_SOCKET_WRITE).
Proof.
  intros a b c p d Hd Hl ->. unfold mem_write. cbn [mem_buf mem_pos mem_line].
  pose proof (zlen_nonneg a). pose proof (zlen_nonneg b). pose proof (zlen_nonneg c).
  assert (E : u32 (zlen (a ++ b ++ c) - zlen a) = zlen (b ++ c)).
  { unfold u32. rewrite Z.mod_small; rewrite !zlen_app in *; lia. }
  rewrite E. split.
  - replace (zlen (b ++ c) <? zlen d) with false by (rewrite zlen_app; lia).
    rewrite take_app_exact by reflexivity. f_equal. f_equal. f_equal. f_equal.
    rewrite app_assoc. rewrite drop_app_exact; [reflexivity|]. rewrite zlen_app. lia.
  - intros e He. replace (zlen (b ++ c) <? zlen e) with true by lia. reflexivity.
Qed.
Print Assumptions memory_writer_write.
Example memory_writer_write_case :
  mem_write (mkmem ([9] ++ [1; 2] ++ [3]) 1 0) [7; 8] = Ok (mkmem [9; 7; 8; 3] 1 0) /\
  mem_write (mkmem ([9] ++ [1; 2] ++ [3]) 1 0) [7; 8; 9; 10] = Err ERROR_MEM_SOCKET_WRITE.
Proof. split; reflexivity. Qed.

(** C44: a full read returns the next [n] bytes and consumes no more, or, if
    the connection delivers fewer, the transport's error. *)
Theorem read_fully_exact :
  forall t n, nonempty_chunks (t_chunks t) -> 0 < n ->
    (n <= zlen (t_stream t) ->
       exists t1, read_fully t n = (Ok (take n (t_stream t)), t1) /\
         t_stream t1 = drop n (t_stream t) /\ nonempty_chunks (t_chunks t1) /\ t_err t1 = t_err t) /\
    (zlen (t_stream t) < n ->
       exists t1, read_fully t n = (Err (t_err t), t1) /\ t_stream t1 = []).
Proof. exact read_fully_ok. Qed.
Print Assumptions read_fully_exact.

Example read_fully_nonvacuous :
  read_fully (mktr [[1]; [2; 3]; [4; 5]] ERROR_SOCKET_CLOSED) 4 =
    (Ok [1; 2; 3; 4], mktr [[5]] ERROR_SOCKET_CLOSED) /\
  read_fully (mktr [[1]; [2; 3]] ERROR_SOCKET_CLOSED) 4 =
    (Err ERROR_SOCKET_CLOSED, mktr [] ERROR_SOCKET_CLOSED).
Proof. split; vm_compute; reflexivity. Qed.
