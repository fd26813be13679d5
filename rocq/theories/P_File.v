(** Files: theorems. *)
From Verif Require Import Base M_IO S_IO M_Packet M_Http M_Tls M_Https S_Https M_Upload S_Upload L_Upload M_Flv S_Flv L_Flv P_Flv M_Conf M_File L_File.

(** C179: reads of any positive sizes return the bytes of the file in order, each
    as many as it asks for until the end is met, where one read is shorter
    (possibly empty); every later one reports the end. *)
Theorem file_reads_exact : forall text sizes, Forall (fun n => 0 < n) sizes ->
  exists full last k ns ns' rest, sizes = ns ++ ns' ++ rest /\ f_reads (f_new text) sizes = map Ok full ++ map Ok last ++ repeat (Err ERROR_IO_EOF) k /\
    Forall2 (fun n d => zlen d = n) ns full /\ Forall2 (fun n d => zlen d < n) ns' last /\ length rest = k /\
    (exists more, text = concat full ++ concat last ++ more /\ (last <> [] -> more = [])) /\
    (length last <= 1)%nat /\ (last = [] -> k = O).
Proof. intros text sizes HF. exact (f_reads_all sizes HF text []). Qed.
Example file_reads_case : f_reads (f_new [1; 2; 3; 4; 5]) [2; 3; 4; 1] = [Ok [1; 2]; Ok [3; 4; 5]; Ok []; Err ERROR_IO_EOF] /\
  f_reads (f_new [1; 2; 3; 4; 5]) [4; 4; 4] = [Ok [1; 2; 3; 4]; Ok [5]; Err ERROR_IO_EOF].
Proof. split; reflexivity. Qed.
Print Assumptions file_reads_exact.

(** Read by lines, a file gives its lines (those the configuration is made of,
    M_Conf.v) and then its end. *)
Theorem file_lines_exact : forall text k, let ls := lines_of [] text in (length ls <= k)%nat ->
  f_lines k (f_new text) = map Ok ls ++ repeat (Err ERROR_IO_EOF) (k - length ls).
Proof. intros text k. apply (f_lines_all k (f_new text) eq_refl). Qed.
Example file_lines_case : f_lines 4 (f_new [65; 10; 10; 66]) = [Ok [65]; Ok []; Ok [66]; Err ERROR_IO_EOF].
Proof. reflexivity. Qed.
Print Assumptions file_lines_exact.

(** Whatever reads a file (reads of positive size, stopping at the first error
    and asking again after an empty read) ends as over a connection that brings
    the bytes of the file and then the end of the file. *)
Theorem file_transparent : forall A (p : prog A) text, reads_body p -> text <> [] ->
  fst (run_file p (f_new text)) = fst (run_plain p (mktr [text] ERROR_IO_EOF)).
Proof.
  intros A p text Hp Ht. rewrite run_file_plain by (exact Hp || (left; reflexivity)). unfold conn_of, f_new. cbn [f_left]. destruct text; [congruence|reflexivity].
Qed.
Example file_transparent_case : reads_body (flv_decode_prog 9 (repeat 0 64)) /\
  fst (run_file (flv_decode_prog 9 (repeat 0 64)) (f_new (flv_default_header ++ flv_layout 0 flv_ex_packets))) = Ok (flv_ex_packets, Err ERROR_IO_EOF).
Proof. split; [apply flv_decode_okb; reflexivity|vm_compute; reflexivity]. Qed.
Print Assumptions file_transparent.

(** C180: an FLV file copied packet by packet is the same file, byte for byte. *)
Theorem flv_file_copy_exact : forall fill h ps, 15 <= zlen fill < 2 ^ 24 -> zlen h = 9 -> take 3 h = [0x46; 0x4C; 0x56] ->
  Forall (flv_transportable (zlen fill)) ps ->
  flv_copy (S (length ps)) fill (h ++ flv_layout 0 ps) = (Ok tt, mksink [] (h ++ flv_layout 0 ps)).
Proof. exact copy_ok. Qed.
Example flv_file_copy_case : Forall (flv_transportable 64) flv_ex_packets /\
  snd (flv_copy 5 (repeat 0 64) ([0x46; 0x4C; 0x56; 1; 1; 0; 0; 0; 9] ++ flv_layout 0 flv_ex_packets))
  = mksink [] ([0x46; 0x4C; 0x56; 1; 1; 0; 0; 0; 9] ++ flv_layout 0 flv_ex_packets).
Proof.
  split; [exact (proj1 flv_roundtrip_nonvacuous)|vm_compute; reflexivity].
Qed.
Print Assumptions flv_file_copy_exact.

(** C181: a write to a file that reports success has been written, if no read has
    met the end of the file; from the first refusal of the device on every
    write reports the failure. *)
Theorem file_writes_reported : forall text ds dev, length dev = length ds ->
  exists k done, f_writes (f_new text) ds dev = (repeat (Ok tt) k ++ repeat (Err ERROR_FILE_WRITE) (length ds - k), done) /\
    f_out done = concat (firstn k ds) /\ firstn k dev = repeat true k /\ (k <= length ds)%nat /\ (k < length ds -> nth k dev true = false)%nat.
Proof. intros text ds dev H. exact (f_writes_all ds dev text [] H). Qed.
Example file_writes_case : f_writes (f_new []) [[1]; [2; 3]; [4]] [true; false; true]
  = ([Ok tt; Err ERROR_FILE_WRITE; Err ERROR_FILE_WRITE], mkfs [] false true true [1]).
Proof. reflexivity. Qed.
Print Assumptions file_writes_reported.
(** After a write that the device refused, reads fail too. *)
Theorem file_read_after_refusal : forall text d n,
  fst (f_read (snd (f_write (f_new text) d false)) n) = Err ERROR_FILE_READ.
Proof. reflexivity. Qed.
Example file_read_after_refusal_case : fst (f_read (f_new [1; 2]) 1) = Ok [1] /\
  fst (f_read (snd (f_write (f_new [1; 2]) [3] false)) 1) = Err ERROR_FILE_READ /\
  fst (f_read (snd (f_write (f_new [1; 2]) [3] true)) 1) = Ok [1].
Proof. repeat split. Qed.
Print Assumptions file_read_after_refusal.
(** After a read that met the end, writes report success and write nothing. *)
Theorem file_write_after_end_lost_refuted : forall text n d, zlen text < n ->
  exists f1, f_read (f_new text) n = (Ok text, f1) /\ fst (f_write f1 d true) = Ok tt /\ f_out (snd (f_write f1 d true)) = [].
Proof.
  intros text n d H. pose proof (zlen_nonneg text). rewrite f_read_good by (reflexivity || lia). cbn [f_new f_left f_out]. rewrite take_all by lia.
  replace (zlen text <? n) with true by lia. eexists. repeat split.
Qed.
Example file_write_after_end_case : zlen [1; 2] < 3.
Proof. reflexivity. Qed.
Print Assumptions file_write_after_end_lost_refuted.
