(** Shared vocabulary of the model: C integers and bytes as [Z], results with
    undefined behaviour as a separate outcome, error codes, big-endian
    encodings and bounds-checked slices.  No protocol logic lives here. *)
From Coq Require Export String Ascii.
From Coq Require Export List ZArith Lia Bool.
From Coq Require Export ZifyBool ZifyNat.
Export ListNotations.
#[global] Open Scope list_scope.
#[global] Open Scope Z_scope.

(** Result of a C++ call.  [Ok] is SUCCESS with the observable values, [Err]
    an [error_t] other than SUCCESS (src/sps_error.hpp:29-170), [UB] undefined
    behaviour (out-of-bounds access, failed assert, null dereference), [Fuel]
    means the model's recursion budget ran out (never a normal outcome). *)
Inductive res (A : Type) : Type :=
| Ok (a : A)
| Err (code : Z)
| UB
| Fuel.
Arguments Ok {A}. Arguments Err {A}. Arguments UB {A}. Arguments Fuel {A}.

Definition bind {A B} (r : res A) (f : A -> res B) : res B :=
  match r with Ok a => f a | Err c => Err c | UB => UB | Fuel => Fuel end.
Notation "'let?' x ':=' r 'in' k" := (bind r (fun x => k))
  (at level 200, x pattern, r at level 100, k at level 200).

Definition of_opt {A} (o : option A) : res A :=
  match o with Some a => Ok a | None => UB end.

(** Error codes, src/sps_error.hpp (line numbers beside each). *)
Definition ERROR_CONFIG_PARSE_INVALID := 93.      (* :35 *)
Definition ERROR_SOCKET_CLOSED := 1004.           (* :50 *)
Definition ERROR_SOCKET_READ := 1007.             (* :51 *)
Definition ERROR_SOCKET_WRITE := 1009.            (* :53 *)
Definition ERROR_SOCKET_TIMEOUT := 1011.          (* :54 *)
Definition ERROR_SOCKET_BUFFER_SMALL := 1066.     (* :56 *)
Definition ERROR_SRT_STREAM_ID := 1322.           (* :74 *)
Definition ERROR_IO_EOF := 1353.                  (* :88 *)
Definition ERROR_IO_BUFFER_FULL := 1354.          (* :89 *)
Definition ERROR_IO_NOT_ENOUGH := 1355.           (* :90 *)
Definition ERROR_MEM_SOCKET_WRITE := 1602.        (* :98 *)
Definition ERROR_HTTP_HEADER_PARSE := 1703.       (* :103 *)
Definition ERROR_HTTP_RES_EOF := 1705.            (* :105 *)
Definition ERROR_HTTP_CHUNKED_LENGTH_LARGE := 1707. (* :107 *)
Definition ERROR_HTTP_CHUNKED_INVALID := 1708.    (* :108 *)
Definition ERROR_HTTP_HAS_SOURCE := 1709.         (* :109 *)
Definition ERROR_RTMP_HAS_SOURCE := 1911.         (* :125 *)
Definition ERROR_STREAM_PUBLISH_NOT_SUPPORT := 3004. (* :134 *)
Definition ERROR_STREAM_SOURCE_NOT_EXITS := 3005. (* :135 *)
Definition ERROR_AVFORMAT_ENCODER_NOT_EXISTS := 3100. (* :139 *)
Definition ERROR_AVFORMAT_DEMUX_NOT_EXISTS := 3101. (* :140 *)
Definition ERROR_HOST_NOT_EXISTS := 1800.         (* :112 *)
Definition ERROR_RTMP_NOT_IMPL := 1901.           (* :115 *)
Definition ERROR_FLV_PROBE := 3201.               (* :144 *)
Definition ERROR_FLV_TAG := 3203.                 (* :146 *)
Definition ERROR_FLV_AUDIO_CODECID := 3204.       (* :147 *)
Definition ERROR_FLV_VIDEO_CODECID := 3205.       (* :148 *)
Definition ERROR_FLV_UNKNOWN_TAG_TYPE := 3206.    (* :149 *)
Definition ERROR_TS_PACKET_SIZE := 3300.          (* :151 *)
Definition ERROR_TS_PACKET_DECODE := 3301.        (* :152 *)
Definition ERROR_TS_PACKET_CC_CONTINUE := 3302.   (* :153 *)
Definition ERROR_RTP_PROBE := 3350.               (* :155 *)
Definition ERROR_RTP_NOT_SUPPORT := 3351.         (* :156 *)
Definition ERROR_RTP_PAYLOAD_TYPE := 3352.        (* :157 *)
Definition ERROR_RTP_DECODER_H264 := 3353.        (* :158 *)
Definition ERROR_H264_DECODER := 3500.            (* :160 *)
Definition ERROR_H264_ENCODER := 3501.            (* :161 *)
Definition ERROR_AAC_DECODER := 3600.             (* :164 *)

Definition ERROR_CO_CREATE := 50. (* :31 *)
Definition ERROR_CONFIG_ITEM := 91. (* :33 *)
Definition ERROR_CONFIG_SUBMODULE := 92. (* :34 *)
Definition ERROR_CONFIG_OPT_SET := 100. (* :37 *)
Definition ERROR_CONFIG_OPT_TYPE := 101. (* :38 *)
Definition ERROR_CONFIG_FACTORY_DUP := 102. (* :39 *)
Definition ERROR_CONFIG_INSTALL := 103. (* :41 *)
Definition ERROR_MODULE_TYPE_NOT_MATCH := 200. (* :43 *)
Definition ERROR_SOCKET_CREATE := 1000. (* :46 *)
Definition ERROR_SOCKET_SETREUSE := 1001. (* :47 *)
Definition ERROR_SOCKET_BIND := 1002. (* :48 *)
Definition ERROR_SOCKET_LISTEN := 1003. (* :49 *)
Definition ERROR_SOCKET_READ_FULLY := 1008. (* :52 *)
Definition ERROR_SOCKET_EINTR := 1065. (* :55 *)
Definition ERROR_ST_OPEN_SOCKET := 1200. (* :58 *)
Definition ERROR_ST_CONNECT := 1201. (* :59 *)
Definition ERROR_SRT_SOCKET_CREATE := 1300. (* :62 *)
Definition ERROR_SRT_SOCKET_CONNECT := 1301. (* :63 *)
Definition ERROR_SRT_SOCKET_TIMEOUT := 1304. (* :64 *)
Definition ERROR_SRT_SOCKET_CLOSED := 1305. (* :65 *)
Definition ERROR_SRT_SOCKET_BROKEN := 1306. (* :66 *)
Definition ERROR_SRT_SOCKET_CLOSING := 1307. (* :67 *)
Definition ERROR_SRT_SOCKET_NOTEXITS := 1308. (* :68 *)
Definition ERROR_SRT_SOCKET_STATUS_OK := 1309. (* :69 *)
Definition ERROR_SRT_SOCKET_BIND := 1310. (* :70 *)
Definition ERROR_SRT_SOCKET_LISTEN := 1311. (* :71 *)
Definition ERROR_SRT_SOCKET_UNKNOWN := 1320. (* :72 *)
Definition ERROR_SRT_NOT_SUPPORT_FAST_OPEN := 1321. (* :73 *)
Definition ERROR_SSL_READ := 1330. (* :77 *)
Definition ERROR_SSL_WRITE := 1331. (* :78 *)
Definition ERROR_SSL_HANDSHAKE := 1332. (* :79 *)
Definition ERROR_SSL_HANDSHAKE_CONTINUE := 1333. (* :80 *)
Definition ERROR_SSL_CERT_NOT_FOUND := 1334. (* :81 *)
Definition ERROR_URL_PROTOCOL_NOT_EXISTS := 1340. (* :83 *)
Definition ERROR_FILE_OPEN := 1350. (* :85 *)
Definition ERROR_FILE_READ := 1351. (* :86 *)
Definition ERROR_FILE_WRITE := 1352. (* :87 *)
Definition ERROR_SYSTEM_IP_INVALID := 1500. (* :93 *)
Definition ERROR_MEM_OVERFLOW := 1600. (* :96 *)
Definition ERROR_MEM_SOCKET_READ := 1601. (* :97 *)
Definition ERROR_HTTP_SOCKET_CREATE := 1700. (* :101 *)
Definition ERROR_HTTP_SOCKET_CONNECT := 1701. (* :102 *)
Definition ERROR_HTTP_RSP_NOT_OK := 1704. (* :104 *)
Definition ERROR_HTTP_UPSTREAM_NOT_FOUND := 1706. (* :106 *)
Definition ERROR_UPSTREAM_NOT_FOUND := 1900. (* :114 *)
Definition ERROR_RTMP_NOT_CONNECT := 1902. (* :116 *)
Definition ERROR_RTMP_HANDSHAKE := 1903. (* :117 *)
Definition ERROR_RTMP_AMF_DECODE := 1904. (* :118 *)
Definition ERROR_RTMP_AMF_CMD_CONVERT := 1905. (* :119 *)
Definition ERROR_RTMP_AMF_PROP_NOT_FOUND := 1906. (* :120 *)
Definition ERROR_RTMP_AMF_PROP_TYPE := 1907. (* :121 *)
Definition ERROR_RTMP_CONNECT := 1908. (* :122 *)
Definition ERROR_RTMP_ROLE := 1909. (* :123 *)
Definition ERROR_RTMP_NO_SOURCE := 1910. (* :124 *)
Definition ERROR_RTMP_HEAD_TOO_SHORT := 1912. (* :126 *)
Definition ERROR_STREAM_EOF := 3000. (* :130 *)
Definition ERROR_STREAM_NOT_IMPL := 3001. (* :131 *)
Definition ERROR_STREAM_NOT_CONF := 3002. (* :132 *)
Definition ERROR_STREAM_IO_FAIL := 3003. (* :133 *)
Definition ERROR_STREAM_EDGE_NOT_START := 3010. (* :137 *)
Definition ERROR_AVFORMAT_RTMP_IO_NULL := 3104. (* :141 *)
Definition ERROR_FLV_BUFFER_OVERFLOW := 3202. (* :145 *)
Definition ERROR_H264_NOT_IMPL := 3502. (* :162 *)
Definition ERROR_FFMPEG_OPEN := 5000. (* :168 *)
Definition ERROR_FFMPEG_READ := 5001. (* :169 *)
Definition ERROR_FFMPEG_WRITE := 5002. (* :170 *)

(** C unsigned wrap-around and the 32-bit signed reinterpretation. *)
Definition u8  (x : Z) : Z := x mod 2^8.
Definition u16 (x : Z) : Z := x mod 2^16.
Definition u32 (x : Z) : Z := x mod 2^32.
Definition u64 (x : Z) : Z := x mod 2^64.
Definition s32 (x : Z) : Z := (x + 2^31) mod 2^32 - 2^31.

(** Bytes. *)
Definition byte (b : Z) : Prop := 0 <= b < 256.
Definition bytes (l : list Z) : Prop := Forall byte l.
Definition byteb (b : Z) : bool := (0 <=? b) && (b <? 256).
Definition bytesb (l : list Z) : bool := forallb byteb l.

Definition zlen {A} (l : list A) : Z := Z.of_nat (length l).
Definition take {A} (n : Z) (l : list A) : list A := firstn (Z.to_nat n) l.
Definition drop {A} (n : Z) (l : list A) : list A := skipn (Z.to_nat n) l.

(** Bounds-checked element and slice of a buffer: [None] is an access outside
    the buffer. *)
Definition nthz {A} (l : list A) (i : Z) : option A :=
  if i <? 0 then None else nth_error l (Z.to_nat i).
Definition slice {A} (l : list A) (off n : Z) : option (list A) :=
  if (0 <=? off) && (0 <=? n) && (off + n <=? zlen l)
  then Some (take n (drop off l)) else None.

(** Big-endian integers. *)
Definition bev (l : list Z) : Z := fold_left (fun a b => a * 256 + b) l 0.
Fixpoint be (k : nat) (v : Z) : list Z :=
  match k with
  | O => []
  | S k' => be k' (v / 256) ++ [v mod 256]
  end.

(** Text: C strings are byte lists; [str] is only used to write literals. *)
Fixpoint str (s : string) : list Z :=
  match s with
  | EmptyString => []
  | String c s' => Z.of_N (N_of_ascii c) :: str s'
  end.

Definition CR : Z := 13.
Definition LF : Z := 10.
Definition SP : Z := 32.

Fixpoint eqb_list (a b : list Z) : bool :=
  match a, b with
  | [], [] => true
  | x :: a', y :: b' => (x =? y) && eqb_list a' b'
  | _, _ => false
  end.

(* ------------------------------------------------------------------ *)
(** * Lemmas *)

Ltac zify_divmod := Z.to_euclidean_division_equations.

Lemma zlen_nonneg {A} (l : list A) : 0 <= zlen l.
Proof. unfold zlen; lia. Qed.
Lemma zlen_nil {A} : zlen (@nil A) = 0.
Proof. reflexivity. Qed.
Lemma zlen_cons {A} (x : A) l : zlen (x :: l) = 1 + zlen l.
Proof. unfold zlen; cbn [length]; lia. Qed.
Lemma zlen_app {A} (a b : list A) : zlen (a ++ b) = zlen a + zlen b.
Proof. unfold zlen; rewrite app_length; lia. Qed.
Lemma zlen_0_nil {A} (l : list A) : zlen l = 0 -> l = [].
Proof. destruct l; [reflexivity|]; rewrite zlen_cons; pose proof (zlen_nonneg l); lia. Qed.
Lemma zlen_map {A B} (f : A -> B) l : zlen (map f l) = zlen l.
Proof. unfold zlen; rewrite map_length; reflexivity. Qed.
Lemma zlen_rev {A} (l : list A) : zlen (rev l) = zlen l.
Proof. unfold zlen; rewrite rev_length; reflexivity. Qed.
Lemma zlen_repeat {A} (x : A) n : zlen (repeat x n) = Z.of_nat n.
Proof. unfold zlen; rewrite repeat_length; reflexivity. Qed.

Lemma take_app_exact {A} n (a b : list A) : n = zlen a -> take n (a ++ b) = a.
Proof.
  intros ->; unfold take, zlen; rewrite Nat2Z.id, firstn_app, Nat.sub_diag.
  cbn [firstn]; rewrite firstn_all, app_nil_r; reflexivity.
Qed.
Lemma drop_app_exact {A} n (a b : list A) : n = zlen a -> drop n (a ++ b) = b.
Proof.
  intros ->; unfold drop, zlen; rewrite Nat2Z.id, skipn_app, skipn_all, Nat.sub_diag.
  reflexivity.
Qed.
Lemma take_all {A} n (l : list A) : zlen l <= n -> take n l = l.
Proof. intros H; unfold take, zlen in *; apply firstn_all2; lia. Qed.
Lemma drop_all {A} n (l : list A) : zlen l <= n -> drop n l = [].
Proof. intros H; unfold drop, zlen in *; apply skipn_all2; lia. Qed.
Lemma take_0 {A} n (l : list A) : n <= 0 -> take n l = [].
Proof. intros H; unfold take; replace (Z.to_nat n) with O by lia; reflexivity. Qed.
Lemma drop_0 {A} n (l : list A) : n <= 0 -> drop n l = l.
Proof. intros H; unfold drop; replace (Z.to_nat n) with O by lia; reflexivity. Qed.
Lemma take_drop {A} n (l : list A) : take n l ++ drop n l = l.
Proof. unfold take, drop; apply firstn_skipn. Qed.
Lemma zlen_take {A} n (l : list A) : 0 <= n -> zlen (take n l) = Z.min n (zlen l).
Proof. intros H; unfold take, zlen; rewrite firstn_length; lia. Qed.
Lemma zlen_drop {A} n (l : list A) : 0 <= n -> zlen (drop n l) = Z.max 0 (zlen l - n).
Proof. intros H; unfold drop, zlen; rewrite skipn_length; lia. Qed.
Lemma drop_drop {A} a b (l : list A) : 0 <= a -> 0 <= b -> drop a (drop b l) = drop (a + b) l.
Proof.
  intros Ha Hb; unfold drop.
  rewrite Z2Nat.inj_add by lia. rewrite Nat.add_comm.
  generalize (Z.to_nat a) (Z.to_nat b); clear; intros a b; revert l.
  induction b as [|b IH]; intros l; cbn; [reflexivity|].
  destruct l; [now rewrite skipn_nil|]. apply IH.
Qed.
Lemma take_take {A} a b (l : list A) : take a (take b l) = take (Z.min a b) l.
Proof. unfold take; rewrite firstn_firstn; f_equal; lia. Qed.
Lemma take_app_le {A} n (a b : list A) : n <= zlen a -> take n (a ++ b) = take n a.
Proof.
  intros H; unfold take, zlen in *; rewrite firstn_app.
  replace (Z.to_nat n - length a)%nat with O by lia.
  cbn [firstn]; rewrite app_nil_r; reflexivity.
Qed.
Lemma drop_app_le {A} n (a b : list A) : n <= zlen a -> drop n (a ++ b) = drop n a ++ b.
Proof.
  intros H; unfold drop, zlen in *; rewrite skipn_app.
  replace (Z.to_nat n - length a)%nat with O by lia. reflexivity.
Qed.
Lemma take_app_ge {A} n (a b : list A) : zlen a <= n -> take n (a ++ b) = a ++ take (n - zlen a) b.
Proof.
  intros H; unfold take, zlen in *; rewrite firstn_app.
  rewrite firstn_all2 by lia. f_equal; f_equal; lia.
Qed.
Lemma drop_app_ge {A} n (a b : list A) : zlen a <= n -> drop n (a ++ b) = drop (n - zlen a) b.
Proof.
  intros H; unfold drop, zlen in *; rewrite skipn_app.
  rewrite skipn_all2 by lia. cbn [app]; f_equal; lia.
Qed.
Lemma take_cons {A} n (x : A) l : 0 < n -> take n (x :: l) = x :: take (n - 1) l.
Proof.
  intros H; unfold take. replace (Z.to_nat n) with (S (Z.to_nat (n - 1))) by lia.
  reflexivity.
Qed.
Lemma drop_cons {A} n (x : A) l : 0 < n -> drop n (x :: l) = drop (n - 1) l.
Proof.
  intros H; unfold drop. replace (Z.to_nat n) with (S (Z.to_nat (n - 1))) by lia.
  reflexivity.
Qed.
Lemma take_nil {A} n : take n (@nil A) = [].
Proof. unfold take; apply firstn_nil. Qed.
Lemma drop_nil {A} n : drop n (@nil A) = [].
Proof. unfold drop; apply skipn_nil. Qed.

Lemma nthz_0 {A} (x : A) l : nthz (x :: l) 0 = Some x.
Proof. reflexivity. Qed.
Lemma nthz_cons {A} (x : A) l i : 0 < i -> nthz (x :: l) i = nthz l (i - 1).
Proof.
  intros H; unfold nthz.
  destruct (i <? 0) eqn:E1; [lia|]; destruct (i - 1 <? 0) eqn:E2; [lia|].
  replace (Z.to_nat i) with (S (Z.to_nat (i - 1))) by lia. reflexivity.
Qed.
Lemma nthz_some_range {A} (l : list A) i x : nthz l i = Some x -> 0 <= i < zlen l.
Proof.
  unfold nthz, zlen; destruct (i <? 0) eqn:E; [discriminate|]; intros H.
  assert (Hn : nth_error l (Z.to_nat i) <> None) by congruence.
  apply nth_error_Some in Hn; lia.
Qed.
Lemma nthz_in_range {A} (l : list A) i : 0 <= i < zlen l -> exists x, nthz l i = Some x.
Proof.
  unfold nthz, zlen; intros H; destruct (i <? 0) eqn:E; [lia|].
  destruct (nth_error l (Z.to_nat i)) eqn:En; [eauto|].
  apply nth_error_None in En; lia.
Qed.
Lemma nthz_none {A} (l : list A) i : nthz l i = None -> i < 0 \/ zlen l <= i.
Proof.
  intros H; destruct (Z_lt_dec i 0); [lia|]; destruct (Z_le_dec (zlen l) i); [lia|].
  destruct (nthz_in_range l i) as [x Hx]; [lia|congruence].
Qed.
Lemma nthz_drop {A} (l : list A) i n : 0 <= i -> 0 <= n -> nthz (drop n l) i = nthz l (n + i).
Proof.
  intros Hi Hn; unfold nthz, drop.
  destruct (i <? 0) eqn:E1; [lia|]; destruct (n + i <? 0) eqn:E2; [lia|].
  rewrite Z2Nat.inj_add by lia.
  generalize (Z.to_nat n) (Z.to_nat i); clear; intros n; revert l.
  induction n as [|n IH]; intros l i; [reflexivity|].
  destruct l; cbn; [now destruct i|apply IH].
Qed.
Lemma nthz_app_l {A} (a b : list A) i : i < zlen a -> nthz (a ++ b) i = nthz a i.
Proof.
  intros H; unfold nthz, zlen in *; destruct (i <? 0) eqn:E; [reflexivity|].
  apply nth_error_app1; lia.
Qed.
Lemma nthz_app_r {A} (a b : list A) i : zlen a <= i -> nthz (a ++ b) i = nthz b (i - zlen a).
Proof.
  intros H; unfold nthz, zlen in *; destruct (i <? 0) eqn:E; [lia|].
  destruct (i - Z.of_nat (length a) <? 0) eqn:E2; [lia|].
  rewrite nth_error_app2 by lia. f_equal; lia.
Qed.
Lemma nthz_take {A} (l : list A) i n : 0 <= i < n -> nthz (take n l) i = nthz l i.
Proof.
  intros H; unfold nthz, take; destruct (i <? 0) eqn:E; [reflexivity|].
  assert (Hlt : (Z.to_nat i < Z.to_nat n)%nat) by lia.
  revert Hlt; generalize (Z.to_nat n) (Z.to_nat i); clear; intros n; revert l.
  induction n as [|n IH]; intros l i Hlt; [lia|].
  destruct l; [now destruct i|]. destruct i; [reflexivity|]. cbn; apply IH; lia.
Qed.
Lemma nthz_In {A} (l : list A) i x : nthz l i = Some x -> In x l.
Proof. unfold nthz; destruct (i <? 0); [discriminate|]; apply nth_error_In. Qed.

Lemma slice_some {A} (l : list A) off n : 0 <= off -> 0 <= n -> off + n <= zlen l ->
  slice l off n = Some (take n (drop off l)).
Proof.
  intros H1 H2 H3; unfold slice.
  destruct ((0 <=? off) && (0 <=? n) && (off + n <=? zlen l)) eqn:E; [reflexivity|lia].
Qed.
Lemma slice_inv {A} (l : list A) off n s : slice l off n = Some s ->
  0 <= off /\ 0 <= n /\ off + n <= zlen l /\ s = take n (drop off l).
Proof.
  unfold slice; destruct ((0 <=? off) && (0 <=? n) && (off + n <=? zlen l)) eqn:E;
    [|discriminate]; intros [= <-]; repeat split; lia.
Qed.
Lemma slice_app {A} (a b c : list A) off n : off = zlen a -> n = zlen b ->
  slice (a ++ b ++ c) off n = Some b.
Proof.
  intros -> ->. pose proof (zlen_nonneg a); pose proof (zlen_nonneg b); pose proof (zlen_nonneg c).
  rewrite slice_some by (rewrite ?zlen_app; lia).
  rewrite drop_app_exact, take_app_exact by reflexivity. reflexivity.
Qed.
Lemma zlen_slice {A} (l : list A) off n s : slice l off n = Some s -> zlen s = n.
Proof.
  intros H; apply slice_inv in H as (H1 & H2 & H3 & ->).
  rewrite zlen_take, zlen_drop by lia; lia.
Qed.

Lemma bytes_app a b : bytes (a ++ b) <-> bytes a /\ bytes b.
Proof. apply Forall_app. Qed.
Lemma bytes_cons x l : bytes (x :: l) <-> byte x /\ bytes l.
Proof. split; [intros H; inversion H; auto|intros []; constructor; auto]. Qed.
Lemma bytes_nil : bytes [].
Proof. constructor. Qed.
Lemma Forall_take {A} (P : A -> Prop) n l : Forall P l -> Forall P (take n l).
Proof. intros H; rewrite <- (take_drop n l) in H; apply Forall_app in H; tauto. Qed.
Lemma Forall_drop {A} (P : A -> Prop) n l : Forall P l -> Forall P (drop n l).
Proof. intros H; rewrite <- (take_drop n l) in H; apply Forall_app in H; tauto. Qed.
Lemma bytesb_spec l : bytesb l = true <-> bytes l.
Proof.
  unfold bytesb, bytes; rewrite forallb_forall, Forall_forall.
  unfold byteb, byte; split; intros H x Hx; specialize (H x Hx); lia.
Qed.
Lemma nthz_byte l i x : bytes l -> nthz l i = Some x -> byte x.
Proof. intros Hb H; apply nthz_In in H; unfold bytes in Hb; rewrite Forall_forall in Hb; auto. Qed.

Lemma bev_app_acc l a : fold_left (fun a b => a * 256 + b) l a = a * 256 ^ zlen l + bev l.
Proof.
  unfold bev; revert a; induction l as [|x l IH]; intros a; cbn [fold_left].
  - rewrite zlen_nil; lia.
  - rewrite IH, (IH (0 * 256 + x)), zlen_cons, Z.pow_add_r by (pose proof (zlen_nonneg l); lia).
    lia.
Qed.
Lemma bev_app a b : bev (a ++ b) = bev a * 256 ^ zlen b + bev b.
Proof. unfold bev at 1; rewrite fold_left_app; apply bev_app_acc. Qed.
Lemma bev_cons x l : bev (x :: l) = x * 256 ^ zlen l + bev l.
Proof. change (x :: l) with ([x] ++ l); rewrite bev_app; unfold bev at 1; cbn; lia. Qed.
Lemma bev_nil : bev [] = 0.
Proof. reflexivity. Qed.
Lemma bev_range l : bytes l -> 0 <= bev l < 256 ^ zlen l.
Proof.
  induction l as [|x l IH]; intros H.
  - cbn; lia.
  - apply bytes_cons in H as [Hx Hl]; specialize (IH Hl); unfold byte in Hx.
    rewrite bev_cons, zlen_cons, Z.pow_add_r by (pose proof (zlen_nonneg l); lia).
    nia.
Qed.
Lemma be_length k v : length (be k v) = k.
Proof. revert v; induction k; intros v; cbn [be]; [reflexivity|]; rewrite app_length, IHk; cbn; lia. Qed.
Lemma zlen_be k v : zlen (be k v) = Z.of_nat k.
Proof. unfold zlen; rewrite be_length; reflexivity. Qed.
Lemma be_bytes k v : bytes (be k v).
Proof.
  revert v; induction k; intros v; cbn [be]; [constructor|].
  apply bytes_app; split; [apply IHk|]. apply bytes_cons; split; [|constructor].
  unfold byte; apply Z.mod_pos_bound; lia.
Qed.
Lemma bev_be k v : bev (be k v) = v mod 256 ^ Z.of_nat k.
Proof.
  revert v; induction k as [|k IH]; intros v.
  - cbn. now rewrite Z.mod_1_r.
  - cbn [be]; rewrite bev_app, IH.
    rewrite Nat2Z.inj_succ, Z.pow_succ_r by lia.
    change (zlen [v mod 256]) with 1. rewrite Z.pow_1_r.
    unfold bev; cbn [fold_left].
    rewrite Z.rem_mul_r by lia. lia.
Qed.
Lemma be_bev l : bytes l -> be (length l) (bev l) = l.
Proof.
  induction l as [|x l IH] using rev_ind; intros H; [reflexivity|].
  apply bytes_app in H as [Hl Hx]; apply bytes_cons in Hx as [Hx _]; unfold byte in Hx.
  rewrite app_length; cbn [length]; rewrite Nat.add_1_r; cbn [be].
  rewrite bev_app; change (zlen [x]) with 1; rewrite Z.pow_1_r.
  replace (bev [x]) with x by (unfold bev; cbn; lia).
  replace ((bev l * 256 + x) / 256) with (bev l) by (apply Z.div_unique with x; lia).
  replace ((bev l * 256 + x) mod 256) with x by (apply Z.mod_unique with (bev l); lia).
  now rewrite IH.
Qed.

Lemma eqb_list_spec a b : eqb_list a b = true <-> a = b.
Proof.
  revert b; induction a as [|x a IH]; intros [|y b]; cbn; try (split; [discriminate|congruence]);
    [tauto|].
  rewrite andb_true_iff, IH, Z.eqb_eq. split; [intros []; congruence|intros [= ]; auto].
Qed.
Lemma eqb_list_refl a : eqb_list a a = true.
Proof. apply eqb_list_spec; reflexivity. Qed.
Lemma eqb_list_neq a b : a <> b -> eqb_list a b = false.
Proof. intros H; destruct (eqb_list a b) eqn:E; [apply eqb_list_spec in E; contradiction|reflexivity]. Qed.
Lemma list_Z_eq_dec (a b : list Z) : {a = b} + {a <> b}.
Proof. apply list_eq_dec, Z.eq_dec. Defined.

(** Masks and shifts as arithmetic. *)
Lemma land_ones_mod x n m : 0 <= n -> m = 2 ^ n - 1 -> Z.land x m = x mod 2 ^ n.
Proof. intros Hn ->. rewrite <- Z.land_ones by lia. f_equal. rewrite Z.ones_equiv; lia. Qed.
Lemma shiftr_div x n : 0 <= n -> Z.shiftr x n = x / 2 ^ n.
Proof. intros; apply Z.shiftr_div_pow2; lia. Qed.
Lemma shiftl_mul x n : 0 <= n -> Z.shiftl x n = x * 2 ^ n.
Proof. intros; apply Z.shiftl_mul_pow2; lia. Qed.
(** [a | b] with [a] a multiple of 2^n and [b < 2^n] is addition. *)
Lemma lor_add x y n : 0 <= n -> 0 <= y < 2 ^ n -> Z.lor (x * 2 ^ n) y = x * 2 ^ n + y.
Proof.
  intros Hn Hy.
  assert (Hd : Z.land (x * 2 ^ n) y = 0).
  { apply Z.bits_inj'; intros i Hi. rewrite Z.land_spec, Z.bits_0.
    destruct (Z_lt_dec i n) as [Hlt|Hge].
    - rewrite Z.mul_pow2_bits_low by lia. reflexivity.
    - assert (Hb : Z.testbit y i = false).
      { destruct (Z.eq_dec y 0) as [->|Hy0]; [apply Z.bits_0|].
        apply Z.bits_above_log2; [lia|].
        apply Z.lt_le_trans with n; [|lia]. apply Z.log2_lt_pow2; lia. }
      rewrite Hb, andb_false_r; reflexivity. }
  rewrite <- (Z.lxor_lor _ _ Hd). symmetry; apply Z.add_nocarry_lxor; exact Hd.
Qed.

Lemma byte_sweep (f : Z -> bool) :
  forallb (fun n => f (Z.of_nat n)) (seq 0 256) = true -> forall b, byte b -> f b = true.
Proof.
  intros H b [H1 H2]. rewrite forallb_forall in H.
  specialize (H (Z.to_nat b)). rewrite Z2Nat.id in H by lia. apply H.
  apply in_seq; lia.
Qed.
