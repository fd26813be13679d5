(** Files as readers and writers: FileURLProtocol,
    src/io/url/sps_io_url_file.cpp, over std::fstream. *)
From Verif Require Import Base M_IO M_Packet M_Http M_Tls M_Https M_Upload M_Flv.

(** An open std::fstream (sps_io_url_file.hpp:73): what is still to be read, its three
    state bits, and what was written.  Simplifications: the device gives all
    bytes of the file and then its end; a file is read or written, not both
    (except that a write may follow reads that met the end); what is in the
    stream's buffer counts as written. *)
Record fstm := mkfs { f_left : list Z; f_eof : bool; f_fail : bool; f_bad : bool; f_out : list Z }.
(** A file that has been opened, FileURLProtocol::open, :44-64. *)
Definition f_new (text : list Z) : fstm := mkfs text false false false [].
Definition f_good (f : fstm) : bool := negb (f_eof f) && negb (f_fail f) && negb (f_bad f).
(** std::istream::read(buf, n) and gcount() (C++11 27.7.2.3): without the state
    good() nothing is read and failbit is set; with fewer than [n] bytes left
    eofbit and failbit are set. *)
Definition is_read (f : fstm) (n : Z) : list Z * fstm :=
  if f_good f then
    let d := take n (f_left f) in
    let short := zlen d <? n in
    (d, mkfs (drop n (f_left f)) short short (f_bad f) (f_out f))
  else ([], mkfs (f_left f) (f_eof f) true (f_bad f) (f_out f)).
(** FileURLProtocol::read, :81-94. *)
Definition f_read (f : fstm) (n : Z) : res (list Z) * fstm :=
  if f_eof f then (Err ERROR_IO_EOF, f)
  else if f_fail f || f_bad f then (Err ERROR_FILE_READ, f)
  else let '(d, f1) := is_read f n in (Ok d, f1).
(** FileURLProtocol::read_fully, :76-79: the number of bytes is not reported. *)
Definition f_read_fully (f : fstm) (n : Z) : res (list Z) * fstm :=
  let '(d, f1) := is_read f n in
  (if f_fail f1 || f_bad f1 then Err ERROR_IO_EOF else Ok d, f1).
(** std::getline (C++11 21.4.8.9): up to a newline, which is dropped; the end of
    the file sets eofbit, and failbit if there was no character. *)
Fixpoint upto_lf (acc l : list Z) : list Z * option (list Z) :=
  match l with
  | [] => (acc, None)
  | c :: l' => if c =? 10 then (acc, Some l') else upto_lf (acc ++ [c]) l'
  end.
(** FileURLProtocol::read_line, :96-106. *)
Definition f_read_line (f : fstm) : res (list Z) * fstm :=
  let '(line, f1) :=
    if f_good f then
      match upto_lf [] (f_left f) with
      | (line, Some l) => (line, mkfs l false false false (f_out f))
      | (line, None) => (line, mkfs [] true (match f_left f with [] => true | _ => false end) false (f_out f))
      end
    else ([], mkfs (f_left f) (f_eof f) true (f_bad f) (f_out f)) in
  if negb (f_fail f1 || f_bad f1) then (Ok line, f1)
  else if f_eof f1 then (Err ERROR_IO_EOF, f1)
  else (Err ERROR_FILE_READ, f1).
(** FileURLProtocol::write, :112-118.  std::ostream::write (C++11 27.7.3.7)
    without the state good() writes nothing and sets at most failbit; if the
    device refuses ([dev]) badbit is set. *)
Definition f_write (f : fstm) (d : list Z) (dev : bool) : res unit * fstm :=
  let f1 :=
    if f_good f then
      if dev then mkfs (f_left f) (f_eof f) (f_fail f) (f_bad f) (f_out f ++ d)
      else mkfs (f_left f) (f_eof f) (f_fail f) true (f_out f)
    else mkfs (f_left f) (f_eof f) true (f_bad f) (f_out f) in
  (if f_bad f1 then Err ERROR_FILE_WRITE else Ok tt, f1).

(** A program that reads (M_Https.v) from a file. *)
Fixpoint run_file {A} (p : prog A) (f : fstm) : res A * fstm :=
  match p with
  | PRet a => (Ok a, f)
  | PRead n k ke =>
      match f_read f n with
      | (Ok d, f1) => run_file (k d) f1
      | (Err c, f1) => run_file (ke c) f1
      | (UB, f1) => (UB, f1)
      | (Fuel, f1) => (Fuel, f1)
      end
  end.

(** Reads one after the other. *)
Fixpoint f_reads (f : fstm) (sizes : list Z) : list (res (list Z)) :=
  match sizes with
  | [] => []
  | n :: ns => let '(r, f1) := f_read f n in r :: f_reads f1 ns
  end.
Fixpoint f_lines (k : nat) (f : fstm) : list (res (list Z)) :=
  match k with
  | O => []
  | S k' => let '(r, f1) := f_read_line f in r :: f_lines k' f1
  end.
Fixpoint f_writes (f : fstm) (ds : list (list Z)) (dev : list bool) : list (res unit) * fstm :=
  match ds with
  | [] => ([], f)
  | d :: ds' =>
      let '(r, f1) := f_write f d (match dev with b :: _ => b | [] => true end) in
      let '(rs, f2) := f_writes f1 ds' (tl dev) in (r :: rs, f2)
  end.

(** Copying an FLV file, test/test_av_flv.cpp:39-88: the loop that reads a packet
    from one file and writes it to the other.  The output file is the sink of
    M_Flv.v, which takes every write. *)
Fixpoint copy_loop (fuel : nat) (b : avbuf) (f : fstm) (m : flvmux) (s : sink) : res unit * sink :=
  match fuel with
  | O => (Fuel, s)
  | S k =>
      match run_file (flv_packet_prog b) f with
      | (Ok (Ok p, b1), f1) =>
          match flv_write_packet m p s with
          | (Ok _, m1, s1) => copy_loop k b1 f1 m1 s1
          | (Err c, _, s1) => (Err c, s1)
          | (UB, _, s1) => (UB, s1)
          | (Fuel, _, s1) => (Fuel, s1)
          end
      | (Ok (Err c, _), _) => (if c =? ERROR_IO_EOF then Ok tt else Err c, s)
      | (Ok (UB, _), _) | (UB, _) => (UB, s)
      | _ => (Fuel, s)
      end
  end.
Definition flv_copy (fuel : nat) (fill text : list Z) : res unit * sink :=
  let s0 := mksink [] [] in
  match run_file (flv_header_prog (mkab fill 0 0 true)) (f_new text) with
  | (Ok (Ok h, b1), f1) =>
      match flv_write_header (Some h) s0 with
      | (Ok _, s1) => copy_loop fuel b1 f1 flvmux0 s1
      | (Err c, s1) => (Err c, s1)
      | (UB, s1) => (UB, s1)
      | (Fuel, s1) => (Fuel, s1)
      end
  | (Ok (Err c, _), _) => (Err c, s0)
  | (Ok (UB, _), _) | (UB, _) => (UB, s0)
  | _ => (Fuel, s0)
  end.
