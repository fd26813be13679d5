(** Properties C01, C02, C03: the bit cursor. *)
From Verif Require Import Base M_Bits M_Fields S_Bits L_Bits L_BitsW.

(** C01: any sequence of bit reads, byte skips and byte reads that stays within
    the buffer returns the consecutive slices of its bit string (reduced modulo
    2^32, the width of the result type), never leaves the buffer (the outcome
    is [Ok], not [UB]), and the reported remaining size is exact. *)
Theorem bit_reader_returns_fields :
  forall buf ops outs rest,
    bytes buf -> zlen buf < 2 ^ 60 ->
    spec_bit_run (bits_of buf) ops = Some (outs, rest) ->
    exists c, bc_run (bc_init buf) ops = Ok (outs, c) /\ bc_buf c = buf /\ size_bits c = zlen rest.
Proof. exact bit_reader_spec. Qed.
Print Assumptions bit_reader_returns_fields.

Example bit_reader_nonvacuous :
  spec_bit_run (bits_of [0xA5; 0x3C; 0x7F; 0x12; 0x34])
     [RBits 3; RBits 10; RBits 3; RSkip 1; RBytes 1; RBits 7] =
  Some ([OVal 5; OVal 0xA7; OVal 4; OSkip; OBytes [0x12]; OVal 0x1A], [false]) /\
  bytes [0xA5; 0x3C; 0x7F; 0x12; 0x34].
Proof. split; [vm_compute; reflexivity|apply bytesb_spec; reflexivity]. Qed.

(** A single 33-bit read (as PCR/PTS code performs) does not return the 33-bit
    field: the top bit is lost. *)
Theorem bit_read_33_refuted :
  exists buf c v, bytes buf /\ read_bits (bc_init buf) 33 = Ok (v, c) /\
    v <> bval (take 33 (bits_of buf)).
Proof.
  exists [0x80; 0; 0; 0; 0], (mkbc [0x80; 0; 0; 0; 0] 4 7 0), 0.
  split; [apply bytesb_spec; reflexivity|]. split; [vm_compute; reflexivity|vm_compute; discriminate].
Qed.
Print Assumptions bit_read_33_refuted.

(** C02: fields written and read back.  Each field comes back unchanged iff it
    has no byte-local six-bit piece whose bit 4 is set; bytes beyond the written
    ones are untouched; writing never leaves the buffer. *)
Theorem bit_writer_roundtrip_iff :
  forall buf fs,
    bytes buf -> zlen buf < 2 ^ 60 ->
    Forall (fun f => 0 <= snd f <= 32) fs -> widths fs <= 8 * zlen buf ->
    exists c outs c', write_fields (bc_init buf) fs = Ok c /\
      bc_run (bc_init (bc_buf c)) (map (fun f => RBits (snd f)) fs) = Ok (outs, c') /\
      zlen (bc_buf c) = zlen buf /\
      drop ((widths fs + 7) / 8) (bc_buf c) = drop ((widths fs + 7) / 8) buf /\
      readback_exact 0 fs outs /\
      (outs = map (fun f => OVal (fst f mod 2 ^ snd f)) fs <-> fields_ok 0 fs = true).
Proof. exact bit_writer_roundtrip. Qed.
Print Assumptions bit_writer_roundtrip_iff.

(** Both sides of the iff occur: an AudioSpecificConfig layout is fine, a plain
    six-bit field with bit 4 set is not. *)
Example bit_writer_good_fields : fields_ok 0 [(2, 5); (4, 4); (2, 4); (0, 3)] = true /\
  widths [(2, 5); (4, 4); (2, 4); (0, 3)] <= 8 * zlen [0xff; 0xff; 0xff].
Proof. split; vm_compute; congruence. Qed.
Example bit_writer_bad_fields : fields_ok 0 [(0x3f, 6)] = false.
Proof. reflexivity. Qed.

(** The unconditional round trip is false. *)
Theorem bit_writer_roundtrip_refuted :
  exists v c c', 0 <= v < 2 ^ 6 /\ write_bits (bc_init [0]) v 6 = Ok c /\
    read_bits (bc_init (bc_buf c)) 6 = Ok (v - 16, c') /\ v - 16 <> v.
Proof.
  exists 0x3f, (mkbc [0xBC] 0 2 0), (mkbc [0xBC] 0 2 0).
  repeat split; try (vm_compute; congruence).
Qed.
Print Assumptions bit_writer_roundtrip_refuted.

(** The position the cursor reports is the byte in which the next bit lies,
    whole bytes or not. *)
Theorem bit_position_exact :
  forall buf ops outs rest,
    bytes buf -> spec_bit_run (bits_of buf) ops = Some (outs, rest) ->
    exists c, bc_run (bc_init buf) ops = Ok (outs, c) /\ bc_off c = (8 * zlen buf - zlen rest) / 8.
Proof.
  intros buf ops outs rest Hb Hs.
  destruct (bc_run_ok ops (bc_init buf) (bits_of buf) outs rest (cur_init _ Hb) ltac:(cbn; lia) Hs) as (c & Hrun & Hc & Hr & Hbuf).
  exists c. split; [exact Hrun|]. pose proof (cur_len _ _ Hc) as L. cbn [bc_buf bc_init] in Hbuf. rewrite Hbuf in L.
  destruct Hc as (_ & _ & _ & H3 & _). unfold bc_off. destruct (Z.ltb_spec 0 (bc_rem c)).
  - apply (Z.div_unique _ 8 _ (8 - bc_rem c)); lia.
  - apply (Z.div_unique _ 8 _ 0); lia.
Qed.
Print Assumptions bit_position_exact.
Example bit_position_case : exists c1 c2, bc_run (bc_init [1; 2; 3]) [RBits 15] = Ok ([OVal 129], c1) /\ bc_off c1 = 1 /\
  bc_run (bc_init [1; 2; 3]) [RBits 15; RBits 1] = Ok ([OVal 129; OVal 0], c2) /\ bc_off c2 = 2.
Proof. eexists _, _. split; [vm_compute; reflexivity|]. split; [reflexivity|]. split; [vm_compute; reflexivity|reflexivity]. Qed.

(** C03: at every cursor reached by in-range reads the bounds checks are exact,
    and a granted request can be read. *)
Theorem bit_acquire_exact :
  forall buf ops outs rest,
    bytes buf -> zlen buf < 2 ^ 60 ->
    spec_bit_run (bits_of buf) ops = Some (outs, rest) ->
    exists c, bc_run (bc_init buf) ops = Ok (outs, c) /\
      (forall n, 0 <= n ->
         (acquire_bits c n = Ok tt <-> n <= zlen rest) /\
         (acquire_bits c n = Ok tt -> exists c', read_bits c n = Ok (bval (take n rest) mod 2 ^ 32, c')) /\
         (acquire_bits c n <> Ok tt -> acquire_bits c n = Err ERROR_IO_NOT_ENOUGH)) /\
      (forall k, 0 <= k < 2 ^ 29 -> (bc_acquire c k = Ok tt <-> 8 * k <= zlen rest)).
Proof. exact bit_acquire_spec. Qed.
Print Assumptions bit_acquire_exact.

Example bit_acquire_nonvacuous :
  acquire_bits (mkbc [1; 2] 0 3 8) 11 = Ok tt /\ acquire_bits (mkbc [1; 2] 0 3 8) 12 = Err ERROR_IO_NOT_ENOUGH.
Proof. split; reflexivity. Qed.

(** A skip beyond the end (the code performs unchecked skips) makes the check
    accept everything: a granted read is then out of bounds.  Likewise the
    byte version accepts 2^29 bytes on any buffer. *)
Theorem bit_acquire_after_overrun_refuted :
  exists buf c, bytes buf /\ bc_run (bc_init buf) [RSkip 3] = Ok ([OSkip], c) /\
    acquire_bits c 1000 = Ok tt /\ read_bits c 8 = UB.
Proof.
  exists [1; 2], (mkbc [1; 2] 2 0 0).
  split; [apply bytesb_spec; reflexivity|]. repeat split; vm_compute; reflexivity.
Qed.
Print Assumptions bit_acquire_after_overrun_refuted.

Theorem bit_acquire_2_29_bytes_refuted :
  exists buf, zlen buf = 1 /\ bc_acquire (bc_init buf) (2 ^ 29) = Ok tt.
Proof. exists [7]. split; vm_compute; reflexivity. Qed.
Print Assumptions bit_acquire_2_29_bytes_refuted.
