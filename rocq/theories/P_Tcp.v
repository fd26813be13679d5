(** C178: TCP connections as streams of bytes. *)
From Verif Require Import Base M_IO M_Tls M_Tcp.

(** The bytes that are to come, up to the end of the connection. *)
Fixpoint coming (evs : list tev) : list Z :=
  match evs with [] => [] | TvData d :: l => d ++ coming l | TvEof :: _ => [] | _ :: l => coming l end.
(** The bytes of the reads that succeeded. *)
Definition got (rs : list (res (list Z))) : list Z := concat (map (fun r => match r with Ok d => d | _ => [] end) rs).

Lemma st_read_facts evs : forall size k l, 0 < size -> st_read evs size = Some (k, l) ->
  coming evs = match k with KrData d => d ++ coming l | _ => coming l end /\
  (forall d, k = KrData d -> 1 <= zlen d <= size) /\ (k = KrEof -> coming evs = [] /\ exists l', l = TvEof :: l').
Proof.
  induction evs as [|[[|b d]| | | |] evs IH]; cbn [st_read]; intros size k l Hs H; try discriminate.
  - destruct (IH _ _ _ Hs H) as (A & B & C). cbn [coming app]. auto.
  - injection H as <- <-. split; [|split; [|discriminate]].
    + cbn [coming]. rewrite <- (take_drop size (b :: d)) at 1. rewrite <- app_assoc. f_equal. destruct (drop size (b :: d)); reflexivity.
    + intros x [= <-]. rewrite zlen_take by lia. rewrite zlen_cons. pose proof (zlen_nonneg d). lia.
  - injection H as <- <-. split; [reflexivity|]. split; [discriminate|]. intros _. split; [reflexivity|eauto].
  - injection H as <- <-. split; [reflexivity|]. split; discriminate.
  - injection H as <- <-. split; [reflexivity|]. split; discriminate.
  - injection H as <- <-. split; [reflexivity|]. split; discriminate.
Qed.

(** Reads of any sizes, however the network divides the bytes and whatever
    time-outs and interruptions come between, return the bytes in order, none
    lost, repeated or altered; a read that succeeds returns at least one byte
    and at most what was asked for; a read of nothing is refused; the end of the connection is told as such,
    and only when every byte has been returned. *)
Theorem tcp_reads_in_order : forall sizes evs rs l, Forall (fun n => 0 <= n) sizes -> tcp_reads evs sizes = (rs, l) ->
  got rs ++ coming l = coming evs /\
  (forall j n r, nth_error sizes j = Some n -> nth_error rs j = Some r ->
     match r with Ok d => 1 <= zlen d <= n | Err c => c <> 0 | _ => False end /\
     (n = 0 -> r = Err ERROR_IO_BUFFER_FULL) /\
     (r = Err ERROR_SOCKET_CLOSED -> got (firstn j rs) = coming evs)).
Proof.
  induction sizes as [|n sizes IH]; cbn [tcp_reads]; intros evs rs l Hs H.
  { injection H as <- <-. split; [reflexivity|]. intros [|j] n r Hn; discriminate. }
  pose proof (Forall_inv Hs) as Hn. pose proof (Forall_inv_tail Hs) as Hs'. cbn beta in Hn.
  destruct (tcp_rd evs n) as [[r l1]|] eqn:R.
  2: { injection H as <- <-. split; [reflexivity|]. intros [|j] n' r Hj Hr; discriminate. }
  destruct (tcp_reads l1 sizes) as [rs1 l2] eqn:T. injection H as <- <-. destruct (IH _ _ _ Hs' T) as (A & B).
  assert (F : coming evs = match r with Ok d => d | _ => [] end ++ coming l1 /\ match r with Ok d => 1 <= zlen d <= n | Err c => c <> 0 | _ => False end /\ (n = 0 -> r = Err ERROR_IO_BUFFER_FULL) /\ (r = Err ERROR_SOCKET_CLOSED -> coming evs = [])).
  { unfold tcp_rd in R. destruct (Z.eqb_spec n 0) as [->|Hz].
    - injection R as <- <-. cbn [tcp_read Z.eqb]. split; [reflexivity|]. split; [discriminate|]. split; [reflexivity|]. intros Q. discriminate.
    - destruct (st_read evs n) as [[k l3]|] eqn:S; [|discriminate]. injection R as <- <-. destruct (st_read_facts _ n _ _ ltac:(lia) S) as (X & Y & Z0).
      unfold tcp_read. destruct (Z.eqb_spec n 0); [lia|]. destruct k; cbn [app]; (split; [exact X|]); (split; [first [apply Y; reflexivity|discriminate]|]); (split; [lia|]); intros Q; try discriminate. apply Z0. reflexivity. }
  destruct F as (F1 & F2 & F0 & F3). split.
  - unfold got in *. cbn [map concat]. rewrite <- app_assoc, A, F1. reflexivity.
  - intros [|j] n' r' Hj Hr; cbn [nth_error] in Hj, Hr.
    + injection Hj as <-. injection Hr as <-. split; [exact F2|]. split; [exact F0|]. intros Q. rewrite (F3 Q). reflexivity.
    + destruct (B j n' r' Hj Hr) as (B1 & B0 & B2). split; [exact B1|]. split; [exact B0|]. intros Q. cbn [firstn]. unfold got in *. cbn [map concat]. rewrite (B2 Q). symmetry. exact F1.
Qed.
Print Assumptions tcp_reads_in_order.
Example tcp_reads_case : tcp_reads [TvData (str "hel"); TvTime; TvData (str "lo"); TvEof] [2; 0; 5; 5; 9; 4; 4] =
  ([Ok (str "he"); Err ERROR_IO_BUFFER_FULL; Ok (str "l"); Err ERROR_SOCKET_TIMEOUT; Ok (str "lo"); Err ERROR_SOCKET_CLOSED; Err ERROR_SOCKET_CLOSED], [TvEof]).
Proof. reflexivity. Qed.

(** The library's full read of a connection that does not fail in between: exactly the next
    [size] bytes, or the error that says that the connection ended first. *)
Theorem tcp_full_read_exact : forall ds l size, 0 < size ->
  (size <= zlen (concat ds) -> exists l', tcp_full (map TvData ds ++ l) size = Some (Ok (take size (concat ds)), l') /\
     coming l' = drop size (concat ds) ++ coming l) /\
  (zlen (concat ds) < size -> tcp_full (map TvData ds ++ TvEof :: l) size = Some (Err ERROR_SOCKET_READ_FULLY, TvEof :: l)).
Proof.
  intros ds l size Hs. unfold tcp_full.
  assert (G : forall ds acc, zlen acc < size ->
    (size <= zlen acc + zlen (concat ds) -> exists l', st_read_fully (map TvData ds ++ l) size acc = Some (KrData (acc ++ take (size - zlen acc) (concat ds)), l') /\ coming l' = drop (size - zlen acc) (concat ds) ++ coming l) /\
    (zlen acc + zlen (concat ds) < size -> exists k, st_read_fully (map TvData ds ++ TvEof :: l) size acc = Some (k, TvEof :: l) /\ tcp_read_fully size k = Err ERROR_SOCKET_READ_FULLY)).
  { clear ds. induction ds as [|d ds IH]; intros acc Ha.
    - cbn [concat map app st_read_fully]. split; [rewrite zlen_nil; lia|]. intros _. destruct (Z.leb_spec size (zlen acc)); [lia|]. eexists. split; [reflexivity|].
      destruct acc; cbn [tcp_read_fully]; [destruct (Z.eqb_spec 0 size); [lia|reflexivity]|]. destruct (Z.eqb_spec (zlen (z :: acc)) size); [lia|reflexivity].
    - cbn [concat map app st_read_fully]. destruct (Z.leb_spec size (zlen acc)); [lia|]. rewrite zlen_app. pose proof (zlen_nonneg d). pose proof (zlen_nonneg (concat ds)).
      destruct (Z.ltb_spec (size - zlen acc) (zlen d)) as [Q|Q].
      + split; [|lia]. intros _. eexists. split; [rewrite take_app_le by lia; reflexivity|]. cbn [coming]. rewrite drop_app_le by lia. rewrite <- app_assoc. f_equal.
        clear. induction ds as [|d ds IH]; [reflexivity|]. cbn [map app coming concat]. rewrite IH. apply app_assoc.
      + destruct (Z.eqb_spec (zlen acc + zlen d) size) as [Q2|Q2].
        * split; [|intros; lia]. intros _. exists (map TvData ds ++ l). split.
          -- assert (E : st_read_fully (map TvData ds ++ l) size (acc ++ d) = Some (KrData (acc ++ d), map TvData ds ++ l)).
             { destruct (map TvData ds ++ l); cbn [st_read_fully]; rewrite zlen_app; destruct (Z.leb_spec size (zlen acc + zlen d)); try lia; reflexivity. }
             rewrite E. replace (size - zlen acc) with (zlen d) by lia. rewrite take_app_exact by reflexivity. reflexivity.
          -- replace (size - zlen acc) with (zlen d) by lia. rewrite drop_app_exact by reflexivity. clear. induction ds as [|d ds IH]; [reflexivity|]. cbn [map app coming concat]. rewrite IH. apply app_assoc.
        * destruct (IH (acc ++ d)) as (I1 & I2); [rewrite zlen_app; lia|]. rewrite zlen_app in I1, I2. split.
          -- intros Q3. destruct (I1 ltac:(lia)) as (l' & E1 & E2). exists l'. split.
             ++ rewrite E1. rewrite <- app_assoc. f_equal. f_equal. f_equal. f_equal. rewrite take_app_ge by lia. f_equal. f_equal. lia.
             ++ rewrite E2. f_equal. rewrite drop_app_ge by lia. f_equal. lia.
          -- intros Q3. destruct (I2 ltac:(lia)) as (k & E1 & E2). eauto. }
  destruct (G ds []) as (G1 & G2); [rewrite zlen_nil; lia|]. rewrite zlen_nil in G1, G2. split.
  - intros H. destruct (G1 ltac:(lia)) as (l' & E1 & E2). rewrite Z.sub_0_r in E1, E2. exists l'. rewrite E1. cbn [app tcp_read_fully]. rewrite zlen_take by lia.
    replace (Z.min size (zlen (concat ds)) =? size) with true by lia. auto.
  - intros H. destruct (G2 ltac:(lia)) as (k & E1 & E2). rewrite E1, E2. reflexivity.
Qed.
Print Assumptions tcp_full_read_exact.
Example tcp_full_case : tcp_full [TvData (str "ab"); TvData (str "cde")] 4 = Some (Ok (str "abcd"), [TvData (str "e")]) /\
  tcp_full [TvData (str "ab"); TvEof] 4 = Some (Err ERROR_SOCKET_READ_FULLY, [TvEof]).
Proof. split; reflexivity. Qed.

(** C178 fails for that full read when a wait times out: the bytes it had are gone. *)
Theorem tcp_full_read_timeout_refuted : forall d l size, 0 < zlen d < size ->
  exists l', tcp_full (TvData d :: TvTime :: l) size = Some (Err ERROR_SOCKET_TIMEOUT, l') /\ coming l' <> coming (TvData d :: TvTime :: l).
Proof.
  intros d l size H. exists l. unfold tcp_full. cbn [st_read_fully]. rewrite zlen_nil. destruct (Z.leb_spec size 0); [lia|]. destruct (Z.ltb_spec (size - 0) (zlen d)); [lia|]. cbn [app].
  destruct (Z.leb_spec size (zlen d)); [lia|]. split; [reflexivity|]. cbn [coming]. intros Q. apply (f_equal zlen) in Q. rewrite zlen_app in Q. lia.
Qed.
Print Assumptions tcp_full_read_timeout_refuted.
Example tcp_full_timeout_case : tcp_full [TvData (str "ab"); TvTime; TvData (str "cdef")] 4 = Some (Err ERROR_SOCKET_TIMEOUT, [TvData (str "cdef")]).
Proof. reflexivity. Qed.

(** Writes: the peer is sent, in order, of each write the whole data if it
    succeeds and a first part of it if it fails; a write of nothing fails. *)
Theorem tcp_writes_in_order : forall datas es sent rs out, (length datas <= length es)%nat -> tcp_writes es sent datas = (rs, out) ->
  (exists ps, out = sent ++ concat ps /\ length ps = length datas /\ length rs = length datas /\
     forall j p d, nth_error ps j = Some p -> nth_error datas j = Some d -> (exists z, p ++ z = d) /\ (nth_error rs j = Some (Ok tt) -> p = d /\ d <> [])) /\
  (forall j r, nth_error rs j = Some r -> match r with Ok _ => True | Err c => c <> 0 | _ => False end) /\
  (forall j d, nth_error datas j = Some d -> nth_error es j = Some TwAll -> (nth_error rs j = Some (Ok tt) <-> d <> [])).
Proof.
  induction datas as [|d ds IH]; intros es sent rs out Hl H.
  { assert (rs = [] /\ out = sent) as (-> & ->) by (destruct es; cbn in H; injection H as <- <-; auto).
    split; [exists []; cbn [concat]; rewrite app_nil_r; split; [reflexivity|]; split; [reflexivity|]; split; [reflexivity|]; intros [|j]; discriminate|]. split; intros [|j]; discriminate. }
  destruct es as [|e es]; [cbn in Hl; lia|]. cbn [tcp_writes] in H. destruct (tcp_wr e sent d) as [r s1] eqn:E. destruct (tcp_writes es s1 ds) as [rs1 s2] eqn:T. injection H as <- <-.
  destruct (IH es s1 rs1 s2 ltac:(cbn in Hl; lia) T) as ((ps & A1 & A2 & A2' & A3) & B & C).
  assert (X : (exists p z, s1 = sent ++ p /\ p ++ z = d /\ (r = Ok tt -> p = d /\ d <> [])) /\ match r with Ok _ => True | Err c => c <> 0 | _ => False end /\ (e = TwAll -> (r = Ok tt <-> d <> []))).
  { destruct d as [|b d].
    - cbn [tcp_wr tcp_write] in E. injection E as <- <-. split; [exists [], []; rewrite app_nil_r; repeat split; discriminate|]. split; [discriminate|]. intros _. split; [discriminate|congruence].
    - unfold tcp_wr in E. destruct e; cbn [tcp_write] in E; injection E as <- <-.
      + split; [exists (b :: d), []; rewrite app_nil_r; repeat split; discriminate|]. split; [exact I|]. intros _. split; [discriminate|reflexivity].
      + split; [exists (take n (b :: d)), (drop n (b :: d)); rewrite take_drop; repeat split; discriminate|]. split; discriminate.
      + split; [exists (take n (b :: d)), (drop n (b :: d)); rewrite take_drop; repeat split; discriminate|]. split; discriminate. }
  destruct X as ((p & z & -> & X0 & X1) & X2 & X3). split; [|split].
  - exists (p :: ps). cbn [concat length]. rewrite A1, A2, A2', <- app_assoc. split; [reflexivity|]. split; [reflexivity|]. split; [reflexivity|]. intros [|j] p' d' Hp Hd; cbn [nth_error] in Hp, Hd |- *; [|exact (A3 _ _ _ Hp Hd)].
    injection Hp as <-. injection Hd as <-. split; [eauto|]. intros [= ->]. apply X1. reflexivity.
  - intros [|j] c Hc; cbn [nth_error] in Hc; [injection Hc as <-; exact X2|exact (B _ _ Hc)].
  - intros [|j] d' Hd He; cbn [nth_error] in Hd, He |- *; [|exact (C _ _ Hd He)]. injection Hd as <-. injection He as ->. destruct (X3 eq_refl) as (Y1 & Y2). split; [intros [= ->]; auto|intros Q; rewrite (Y2 Q); reflexivity].
Qed.
Print Assumptions tcp_writes_in_order.
Example tcp_writes_case : tcp_writes [TwAll; TwAll; TwTime 1] [] [str "ab"; str "c"; str "de"] = ([Ok tt; Ok tt; Err ERROR_SOCKET_TIMEOUT], str "abcd") /\
  tcp_writes [TwAll] [] [[]] = ([Err ERROR_SOCKET_WRITE], []).
Proof. split; reflexivity. Qed.
