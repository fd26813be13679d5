(** What an MPEG-TS stream is (ISO/IEC 13818-1), written without the parser:
    packets, adaptation fields, PES units and program tables as bytes. *)
From Verif Require Import Base S_Fields.

(** Bit [i] of a byte, 7 is the most significant. *)
Definition bit (f i : Z) : Z := (f / 2 ^ i) mod 2.

(** A transport packet: header fields, adaptation field (without its length
    byte), payload flag and what follows. *)
Record tsp := mktsp {
  t_tei : Z; t_pusi : Z; t_prio : Z; t_pid : Z; t_scr : Z; t_cc : Z;
  t_af : option (list Z); t_has : bool; t_body : list Z
}.
Definition t_afc (k : tsp) : Z :=
  (if t_af k then 2 else 0) + (if t_has k then 1 else 0).
Definition t_fields (k : tsp) : list (Z * Z) :=
  [(0x47, 8); (t_tei k, 1); (t_pusi k, 1); (t_prio k, 1); (t_pid k, 13);
   (t_scr k, 2); (t_afc k, 2); (t_cc k, 4)].
Definition af_bytes (k : tsp) : list Z :=
  match t_af k with None => [] | Some a => zlen a :: a end.
Definition ts_bytes (k : tsp) : list Z := be 4 (pack (t_fields k)) ++ af_bytes k ++ t_body k.
Definition ts_ok (k : tsp) : Prop :=
  fields_fit (t_fields k) = true /\ bytes (ts_bytes k) /\ zlen (ts_bytes k) = 188.

(** The parts an adaptation field announces lie inside it: one byte of flags,
    6 bytes each for PCR (bit 4) and OPCR (bit 3), 1 for the splice countdown
    (bit 2), and the first of the length-prefixed parts when the extension
    flag (bit 0) is set. *)
Definition af_fixed (f : Z) : Z := 1 + 6 * bit f 4 + 6 * bit f 3 + bit f 2.
Definition af_fits (a : list Z) : Prop :=
  match a with
  | [] => True
  | f :: _ =>
      af_fixed f <= zlen a /\
      (bit f 0 = 1 -> exists n, nthz a (af_fixed f) = Some n /\ af_fixed f + 1 + n <= zlen a)
  end.
Definition pk_fits (k : tsp) : Prop :=
  ts_ok k /\ match t_af k with None => True | Some a => af_fits a end.

(** ** PES units *)
(** [pu_f1], [pu_f2] are the two flag bytes, [pu_hdr] the header data. *)
Record pesu := mkpu { pu_sid : Z; pu_len : Z; pu_f1 : Z; pu_f2 : Z; pu_hdr : list Z }.
Definition pes_head (u : pesu) : list Z :=
  [0; 0; 1; pu_sid u] ++ be 2 (pu_len u) ++ [pu_f1 u; pu_f2 u; zlen (pu_hdr u)] ++ pu_hdr u.

(** Size of the optional header fields in the header data [h]. *)
Definition opt_fixed (f : Z) : Z :=
  5 * bit f 7 + 5 * (bit f 7 * bit f 6) + 6 * bit f 5 + 3 * bit f 4 + bit f 3 + bit f 2 + 2 * bit f 1.
Definition opt_len (h : list Z) (flag m o : Z) : option Z :=
  if flag =? 0 then Some o
  else match nthz h o with Some n => Some (o + 1 + n mod m) | None => None end.
Definition opt_size (f : Z) (h : list Z) : option Z :=
  let o := opt_fixed f in
  if bit f 0 =? 0 then Some o
  else match nthz h o with
       | None => None
       | Some e =>
           match opt_len h (bit e 6) 256 (o + 1 + 16 * bit e 7) with
           | None => None
           | Some o => opt_len h (bit e 0) 128 (o + 2 * bit e 5 + 2 * bit e 4)
           end
       end.
(** Stream ids without the optional header. *)
Definition bare_sids : list Z := [0xbc; 0xbe; 0xbf; 0xf0; 0xf1; 0xff; 0xf2; 0xf8].
Definition pu_ok (u : pesu) : Prop :=
  byte (pu_sid u) /\ ~ In (pu_sid u) bare_sids /\ 0 <= pu_len u < 65536 /\
  byte (pu_f1 u) /\ byte (pu_f2 u) /\ bytes (pu_hdr u) /\ zlen (pu_hdr u) < 256 /\
  exists n, opt_size (pu_f2 u) (pu_hdr u) = Some n /\ n <= zlen (pu_hdr u).

(** The 33-bit time stamp in 5 bytes, with its marker bits. *)
Definition stamp (l : list Z) : Z :=
  (nth 0 l 0 / 2) mod 8 * 2 ^ 30 +
  (nth 1 l 0 * 256 + nth 2 l 0) / 2 * 2 ^ 15 +
  (nth 3 l 0 * 256 + nth 4 l 0) / 2.
Definition pu_pts (u : pesu) : Z := if bit (pu_f2 u) 7 =? 1 then stamp (take 5 (pu_hdr u)) else -1.
Definition pu_dts (u : pesu) : Z :=
  if bit (pu_f2 u) 7 * bit (pu_f2 u) 6 =? 1 then stamp (take 5 (drop 5 (pu_hdr u))) else pu_pts u.

(** Payloads carried for a pid. *)
Definition payloads (pid : Z) (l : list tsp) : list Z :=
  flat_map (fun k => if (t_pid k =? pid) && t_has k then t_body k else []) l.
Definition starts_unit (pid : Z) (k : tsp) : Prop := t_pid k = pid /\ t_has k = true /\ t_pusi k = 1.

(** What the demuxer keeps of a unit: everything when the length is not
    declared, otherwise at most the declared number of bytes. *)
Definition clip (u : pesu) (l : list Z) : list Z :=
  if pu_len u =? 0 then l else take (pu_len u) l.

(** The next continuity counter. *)
Definition next_cc (c : Z) : Z := (c + 1) mod 16.

(** ** Program tables *)
(** A PSI section in a packet payload: pointer field 0 when it starts there,
    table id, length, id, version, numbers, table, CRC. *)
Definition section (start : bool) (tid extid ver num last : Z) (tbl crc rest : list Z) : list Z :=
  (if start then [0] else []) ++
  be 8 (pack [(tid, 8); (1, 1); (0, 1); (3, 2); (5 + zlen tbl + 4, 12); (extid, 16); (3, 2); (ver, 5); (1, 1);
              (num, 8); (last, 8)]) ++ tbl ++ crc ++ rest.
(** PAT entries: program number and pid. *)
Definition pat_tbl (es : list (Z * Z)) : list Z :=
  flat_map (fun e => be 4 (pack [(fst e, 16); (7, 3); (snd e, 13)])) es.
(** PMT: PCR pid, program descriptors and (stream type, pid, descriptors). *)
Definition pmt_entry (e : Z * Z * list Z) : list Z :=
  be 5 (pack [(fst (fst e), 8); (7, 3); (snd (fst e), 13); (15, 4); (zlen (snd e), 12)]) ++ snd e.
Definition pmt_tbl (pcr : Z) (desc : list Z) (es : list (Z * Z * list Z)) : list Z :=
  be 4 (pack [(7, 3); (pcr, 13); (15, 4); (0, 2); (zlen desc, 10)]) ++ desc ++ flat_map pmt_entry es.

(** Continuity: each counter is one more than the one before, modulo 16. *)
Fixpoint consecutive (c : Z) (l : list Z) : Prop :=
  match l with [] => True | x :: l' => x = next_cc c /\ consecutive x l' end.
(** The counters of the packets that carry payload for a pid. *)
Definition counters (pid : Z) (l : list tsp) : list Z :=
  map t_cc (filter (fun k => (t_pid k =? pid) && t_has k) l).
(** [a] is [b] with some elements left out. *)
Inductive subseq {A} : list A -> list A -> Prop :=
| sub_nil : subseq [] []
| sub_skip x a b : subseq a b -> subseq a (x :: b)
| sub_keep x a b : subseq a b -> subseq (x :: a) (x :: b).

(** ** A whole elementary stream in packets *)
(** A PES unit spread over packets: the first starts the unit and carries its
    header and [tu_d0], the others continue it. *)
Record tsunit := mktu { tu_pes : pesu; tu_first : tsp; tu_d0 : list Z; tu_more : list tsp }.
Definition tu_packets (t : tsunit) : list tsp := tu_first t :: tu_more t.
Definition tu_data (t : tsunit) : list Z := tu_d0 t ++ flat_map t_body (tu_more t).
Definition tu_ok (pid : Z) (t : tsunit) : Prop :=
  pu_ok (tu_pes t) /\ t_body (tu_first t) = pes_head (tu_pes t) ++ tu_d0 t /\
  Forall (fun k => pk_fits k /\ t_pid k = pid /\ t_has k = true) (tu_packets t) /\
  t_pusi (tu_first t) = 1 /\ Forall (fun k => t_pusi k = 0) (tu_more t).
(** Eight bytes read as a section header, whatever they are; entries with any reserved bits. *)
Record shead := mksh { h_tid : Z; h_ind : Z; h_zero : Z; h_res : Z; h_len : Z; h_ext : Z; h_res2 : Z; h_ver : Z; h_cur : Z; h_num : Z; h_last : Z }.
Definition sh_fields (h : shead) : list (Z * Z) :=
  [(h_tid h, 8); (h_ind h, 1); (h_zero h, 1); (h_res h, 2); (h_len h, 12); (h_ext h, 16); (h_res2 h, 2); (h_ver h, 5); (h_cur h, 1); (h_num h, 8); (h_last h, 8)].
Definition sh_bytes (h : shead) : list Z := be 8 (pack (sh_fields h)).
Definition entries (es : list (Z * Z * Z)) : list Z := flat_map (fun e => be 4 (pack [(fst (fst e), 16); (snd (fst e), 3); (snd e, 13)])) es.
Definition entries_fit (es : list (Z * Z * Z)) : Prop := Forall (fun e => 0 <= fst (fst e) < 65536 /\ 0 <= snd (fst e) < 8 /\ 0 <= snd e < 8192) es.
