(** Model of the I/O layer: transports, buffered byte reader, byte writer,
    full reads and the in-memory reader. *)
From Verif Require Import Base.

(** A stream transport (an [IReader] such as StTcpSocket,
    src/sys/st/io/sps_sys_st_io_tcp.cpp:268-293): the bytes still to arrive,
    cut into the pieces in which the kernel delivers them, and the error
    returned when nothing more comes (closed, timeout, ...).  Time is not
    modelled; a timeout is the end of the list. *)
Record transport := mktr { t_chunks : list (list Z); t_err : Z }.

(** IReader::read(buf, size, nread): at most [size] bytes, at least one.
    StTcpSocket::read :269-271 refuses size 0 with ERROR_IO_BUFFER_FULL. *)
Definition t_read (t : transport) (size : Z) : res (list Z) * transport :=
  if size <=? 0 then (Err ERROR_IO_BUFFER_FULL, t) else
  match t_chunks t with
  | [] => (Err (t_err t), t)
  | c :: cs =>
      if zlen c <=? size then (Ok c, mktr cs (t_err t))
      else (Ok (take size c), mktr (drop size c :: cs) (t_err t))
  end.

(** Socket::read_fully, src/io/sps_io_socket.cpp:79-94: a do-while loop over
    read.  The bytes already consumed before an error are lost with it. *)
Fixpoint read_fully_loop (fuel : nat) (t : transport) (size : Z) (acc : list Z)
  : res (list Z) * transport :=
  match fuel with
  | O => (Fuel, t)
  | S f =>
      match t_read t (size - zlen acc) with
      | (Ok d, t1) =>
          let acc1 := acc ++ d in
          if zlen acc1 <? size then read_fully_loop f t1 size acc1 else (Ok acc1, t1)
      | (Err c, t1) => (Err c, t1)
      | (UB, t1) => (UB, t1)
      | (Fuel, t1) => (Fuel, t1)
      end
  end.
Definition read_fully (t : transport) (size : Z) : res (list Z) * transport :=
  read_fully_loop (S (Z.to_nat size)) t size [].

(** ** AVBuffer, src/io/sps_io_bytes.cpp:32-111.
    [ab_data] is the whole allocation (length = buf_cap), including bytes that
    are stale or not yet written. *)
Record avbuf := mkab {
  ab_data : list Z;      (* buf[0 .. buf_cap) *)
  ab_ptr : Z;            (* buf_ptr *)
  ab_end : Z;            (* buf_end *)
  ab_rw : bool           (* rewindable *)
}.
Definition ab_cap (b : avbuf) : Z := zlen (ab_data b).
(** AVBuffer::size, :75-77 (size_t). *)
Definition ab_size (b : avbuf) : Z := u64 (ab_end b - ab_ptr b).
(** AVBuffer::no_rewind_cap_size, :79-81. *)
Definition ab_norewind (b : avbuf) : Z := u64 (ab_cap b - ab_ptr b).
(** AVBuffer::cap_size, :83-89. *)
Definition ab_cap_size (b : avbuf) : Z := if ab_rw b then ab_cap b else ab_norewind b.
(** AVBuffer::remain, :91-93. *)
Definition ab_remain (b : avbuf) : Z := u64 (ab_cap b - ab_end b).
(** AVBuffer::skip, :95-97. *)
Definition ab_skip (b : avbuf) (n : Z) : avbuf := mkab (ab_data b) (ab_ptr b + n) (ab_end b) (ab_rw b).
(** AVBuffer::rewind, :99-103: memmove of the unread bytes to the front. *)
Definition ab_rewind (b : avbuf) : res avbuf :=
  let? d := of_opt (slice (ab_data b) (ab_ptr b) (ab_end b - ab_ptr b)) in
  Ok (mkab (d ++ drop (zlen d) (ab_data b)) 0 (ab_end b - ab_ptr b) (ab_rw b)).
(** AVBuffer::clear, :109-111. *)
Definition ab_clear (b : avbuf) : avbuf := mkab (ab_data b) 0 0 (ab_rw b).
(** Store of [d] at offset [off] of the allocation (memcpy/recv target). *)
Definition ab_store (b : avbuf) (off : Z) (d : list Z) : res avbuf :=
  if (0 <=? off) && (off + zlen d <=? ab_cap b)
  then Ok (mkab (take off (ab_data b) ++ d ++ drop (off + zlen d) (ab_data b))
                (ab_ptr b) (ab_end b) (ab_rw b))
  else UB.

(** ** BytesReader, src/io/sps_io_bytes.cpp:121-200: buffer plus transport
    ([None] is the null reader of create_reader, :113-119). *)
Record breader := mkbr { br_buf : avbuf; br_io : option transport }.

(** The read loop of BytesReader::acquire, :183-196. *)
Fixpoint acquire_loop (fuel : nat) (r : breader) (n : Z) : res unit * breader :=
  match fuel with
  | O => (Fuel, r)
  | S f =>
      match br_io r with
      | None => (Err ERROR_IO_EOF, r)
      | Some t =>
          match t_read t (ab_remain (br_buf r)) with
          | (Ok d, t1) =>
              match ab_store (br_buf r) (ab_end (br_buf r)) d with
              | Ok b =>
                  let r1 := mkbr (mkab (ab_data b) (ab_ptr b) (ab_end b + zlen d) (ab_rw b)) (Some t1) in
                  if ab_size (br_buf r1) <? n then acquire_loop f r1 n else (Ok tt, r1)
              | _ => (UB, mkbr (br_buf r) (Some t1))
              end
          | (Err c, t1) => (Err c, mkbr (br_buf r) (Some t1))
          | (UB, t1) => (UB, mkbr (br_buf r) (Some t1))
          | (Fuel, t1) => (Fuel, mkbr (br_buf r) (Some t1))
          end
      end
  end.

(** BytesReader::acquire, :164-200. *)
Definition acquire (r : breader) (n : Z) : res unit * breader :=
  if n <=? ab_size (br_buf r) then (Ok tt, r) else
  if ab_cap_size (br_buf r) <? n then (Err ERROR_IO_BUFFER_FULL, r) else
  match (if ab_norewind (br_buf r) <? n then ab_rewind (br_buf r) else Ok (br_buf r)) with
  | Ok b =>
      if ab_norewind b <? n then (UB, r)       (* assert, :181 *)
      else acquire_loop (S (Z.to_nat n)) (mkbr b (br_io r)) n
  | _ => (UB, r)
  end.

(** BytesReader::read_int8, src/io/sps_io_bytes.hpp:103-107: no check against
    buf_end; outside the allocation it is an out-of-bounds read. *)
Definition rd8 (r : breader) : res (Z * breader) :=
  match nthz (ab_data (br_buf r)) (ab_ptr (br_buf r)) with
  | Some v => Ok (v, mkbr (ab_skip (br_buf r) 1) (br_io r))
  | None => UB
  end.
(** read_int16/24/32, sps_io_bytes.cpp:145-155.  Operand evaluation order of
    [|] is taken left to right. *)
Definition rd16 (r : breader) : res (Z * breader) :=
  let? a := rd8 r in let? b := rd8 (snd a) in
  Ok (u16 (Z.lor (Z.shiftl (fst a) 8) (fst b)), snd b).
Definition rd24 (r : breader) : res (Z * breader) :=
  let? a := rd8 r in let? b := rd16 (snd a) in
  Ok (u32 (Z.lor (Z.shiftl (fst a) 16) (fst b)), snd b).
Definition rd32 (r : breader) : res (Z * breader) :=
  let? a := rd16 r in let? b := rd16 (snd a) in
  Ok (u32 (Z.lor (Z.shiftl (fst a) 16) (fst b)), snd b).
(** BytesReader::read_bytes, :128-131, and skip_bytes, :141-143. *)
Definition rdbytes (r : breader) (n : Z) : res (list Z * breader) :=
  match slice (ab_data (br_buf r)) (ab_ptr (br_buf r)) n with
  | Some d => Ok (d, mkbr (ab_skip (br_buf r) n) (br_io r))
  | None => UB
  end.
Definition rdskip (r : breader) (n : Z) : breader := mkbr (ab_skip (br_buf r) n) (br_io r).

(** A fresh reader over a transport: AVBuffer(cap, true), :32-38, as built by
    FlvDemuxer (src/avformat/sps_avformat_flvdec.cpp:36-39).  The allocation is
    uninitialised; [fill] stands for its arbitrary content. *)
Definition br_new (fill : list Z) (t : transport) : breader :=
  mkbr (mkab fill 0 0 true) (Some t).

(** A parser that repeatedly acquires [n] bytes and then consumes [k]. *)
Fixpoint br_run (r : breader) (ops : list (Z * Z)) : list (res (list Z)) * breader :=
  match ops with
  | [] => ([], r)
  | (n, k) :: ops' =>
      match acquire r n with
      | (Ok _, r1) =>
          match rdbytes r1 k with
          | Ok (d, r2) => let '(o, r3) := br_run r2 ops' in (Ok d :: o, r3)
          | _ => ([UB], r1)
          end
      | (Err c, r1) => ([Err c], r1)
      | (UB, r1) => ([UB], r1)
      | (Fuel, r1) => ([Fuel], r1)
      end
  end.

(** ** BytesWriter, src/io/sps_io_bytes.cpp:206-235, .hpp:133-136: the bytes
    appended after buf_end; a write beyond the allocation is UB.  Modelled as
    the list of bytes written so far with the capacity. *)
Record bwriter := mkbw { bw_out : list Z; bw_cap : Z }.
Definition wr_raw (w : bwriter) (d : list Z) : res bwriter :=
  if zlen (bw_out w) + zlen d <=? bw_cap w then Ok (mkbw (bw_out w ++ d) (bw_cap w)) else UB.
Definition wr8 (w : bwriter) (n : Z) : res bwriter := wr_raw w [u8 n].
Definition wr16 (w : bwriter) (n : Z) : res bwriter :=
  let n := u16 n in
  let? w := wr8 w (Z.shiftr n 8) in wr8 w (Z.land n 0xFF).
Definition wr24 (w : bwriter) (n : Z) : res bwriter :=
  let n := u32 n in
  let? w := wr8 w (Z.shiftr n 16) in wr16 w (Z.land n 0xFFFF).
Definition wr32 (w : bwriter) (n : Z) : res bwriter :=
  let n := u32 n in
  let? w := wr8 w (Z.shiftr n 24) in wr24 w (Z.land n 0xFFFFFF).

(** ** MemoryReaderWriter, src/io/sps_io_memory.cpp:35-129: text, position and
    line counter.  Sizes are below 2^31 (the code narrows to int). *)
Record memio := mkmem { mem_buf : list Z; mem_pos : Z; mem_line : Z }.
Definition mem_new (l : list Z) : memio := mkmem l 0 0.

(** MemoryReaderWriter::read, :57-72. *)
Definition mem_read (m : memio) (size : Z) : res (list Z) * memio :=
  let n := Z.min size (zlen (mem_buf m) - mem_pos m) in
  if size =? 0 then (Err ERROR_IO_BUFFER_FULL, m)
  else if n <=? 0 then (Err ERROR_IO_EOF, m)
  else (of_opt (slice (mem_buf m) (mem_pos m) n), mkmem (mem_buf m) (mem_pos m + n) (mem_line m)).

(** MemoryReaderWriter::read_fully, :97-112. *)
Definition mem_read_fully (m : memio) (size : Z) : res (list Z) * memio :=
  let n := Z.min size (zlen (mem_buf m) - mem_pos m) in
  if (n <? size) || (n =? 0) then (Err ERROR_IO_EOF, m)
  else (of_opt (slice (mem_buf m) (mem_pos m) n), mkmem (mem_buf m) (mem_pos m + n) (mem_line m)).

(** The scan [while (pos < len && buf[pos++] != '\n')], :81-82: number of bytes
    consumed from the rest of the text. *)
Fixpoint line_scan (l : list Z) : Z :=
  match l with
  | [] => 0
  | c :: l' => if c =? LF then 1 else 1 + line_scan l'
  end.
(** MemoryReaderWriter::read_line, :74-91: the newline is dropped only if the
    scan stopped before the end of the text. *)
Definition mem_read_line (m : memio) : res (list Z) * memio :=
  if zlen (mem_buf m) <=? mem_pos m then (Err ERROR_IO_EOF, m) else
  let start := mem_pos m in
  let pos := start + line_scan (drop start (mem_buf m)) in
  let tlen := if pos <? zlen (mem_buf m) then pos - start - 1 else pos - start in
  (of_opt (slice (mem_buf m) start tlen), mkmem (mem_buf m) pos (mem_line m + 1)).

(** MemoryReaderWriter::write, :121-129: copies at the position, which is not
    advanced. *)
Definition mem_write (m : memio) (d : list Z) : res memio :=
  if u32 (zlen (mem_buf m) - mem_pos m) <? zlen d then Err ERROR_MEM_SOCKET_WRITE
  else Ok (mkmem (take (mem_pos m) (mem_buf m) ++ d ++ drop (mem_pos m + zlen d) (mem_buf m))
                 (mem_pos m) (mem_line m)).

(** Reading lines until the first error. *)
Fixpoint mem_lines (fuel : nat) (m : memio) : list (list Z) * res unit * memio :=
  match fuel with
  | O => ([], Fuel, m)
  | S f =>
      match mem_read_line m with
      | (Ok l, m1) => let '(ls, e, m2) := mem_lines f m1 in (l :: ls, e, m2)
      | (Err c, m1) => ([], Err c, m1)
      | (UB, m1) => ([], UB, m1)
      | (Fuel, m1) => ([], Fuel, m1)
      end
  end.
