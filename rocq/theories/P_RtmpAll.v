(** Exactly which RTMP clients bring the server into undefined behaviour (C238). *)
From Verif Require Import Base M_Packet M_Rtmp M_Url M_RtmpSess S_RtmpSess L_RtmpSess M_RtmpRelay S_RtmpAll L_RtmpAll.

(** C238: connecting.  Whatever a client sends, and whatever becomes of the server's own
    messages: the outcome is undefined if and only if some reception, reached while the
    phase was still going on, overflows a count, announces a window in fewer than four
    bytes, is a connect with null for its object, is a failure of the library that leaves
    a packet without its body, or (after connect) names a transaction id that is no int. *)
Theorem rtmp_connect_undefined_exactly : forall lib n0 sends evs,
  fst (pre_connect lib n0 sends evs) = CUB <->
  exists pre ev post g, evs = pre ++ ev :: post /\ fst (pre_connect lib n0 sends pre) = CWait /\
    counted (mkg n0 5000000 5000000) pre = Some g /\
    (counts g ev = None \/ null_connect lib ev \/ lost_body ev \/ (has_connected lib pre /\ odd_id lib ev)).
Proof. intros lib n0 sends evs. exact (ph1_exact lib evs (sess0 n0 sends)). Qed.
Print Assumptions rtmp_connect_undefined_exactly.

(** C238: publishing.  The same for the session that follows, with its own counts: only
    these and AAC messages of a single byte. *)
Theorem rtmp_publish_undefined_exactly : forall sends evs,
  Forall (fun ev => match ev with RvMsg m _ => bytes (rm_body m) /\ zlen (rm_body m) < 2 ^ 32 | _ => True end) evs ->
  snd (fst (rtmp_decode (mkse hook_new sends []) evs)) = DUB <->
  exists pre ev post g, evs = pre ++ ev :: post /\ snd (fst (rtmp_decode (mkse hook_new sends []) pre)) = DWait /\
    counted (mkg 0 5000000 5000000) pre = Some g /\ (counts g ev = None \/ single_aac ev).
Proof. intros sends evs H. exact (publish_exact evs (mkse hook_new sends []) H). Qed.
Print Assumptions rtmp_publish_undefined_exactly.

(** C238: the counts stay defined for every client that announces complete windows between
    0 and [W] and sends less than 2^31 - [W] bytes, [W] being 5000000 or more. *)
Theorem rtmp_counts_defined : forall W n0 evs, Forall (modest W) evs -> 0 <= n0 -> 5000000 <= W -> n0 + wire evs + W < 2 ^ 31 ->
  counted (mkg n0 5000000 5000000) evs <> None.
Proof. intros W n0 evs H1 H2 H3 H4. apply (counts_modest W); [exact H1|exact H2|lia|exact H4]. Qed.
Print Assumptions rtmp_counts_defined.

(** C238: so such a publisher is undefined only for an AAC message of a single byte. *)
Theorem rtmp_modest_publisher : forall W sends evs, Forall (modest W) evs -> 5000000 <= W -> wire evs + W < 2 ^ 31 ->
  Forall (fun ev => match ev with RvMsg m _ => bytes (rm_body m) /\ zlen (rm_body m) < 2 ^ 32 | _ => True end) evs ->
  snd (fst (rtmp_decode (mkse hook_new sends []) evs)) = DUB -> exists ev, In ev evs /\ single_aac ev.
Proof.
  intros W sends evs Hm HW Hs Hok U. apply (rtmp_publish_undefined_exactly sends evs Hok) in U. destruct U as (pre & ev & post & g & -> & _ & C & [Q|Q]).
  - exfalso. apply (rtmp_counts_defined W 0 (pre ++ [ev])); [|lia|exact HW| |].
    + apply Forall_app in Hm. destruct Hm as [M1 M2]. inversion M2; subst. apply Forall_app. split; [exact M1|]. constructor; [assumption|constructor].
    + assert (Wa : forall a b, wire (a ++ b) = wire a + wire b) by (induction a as [|[? ?|? ? ?] a IH]; intros b; cbn [app wire]; [lia|rewrite IH; lia|apply IH]).
      assert (Wp : 0 <= wire post). { apply Forall_app in Hm. destruct Hm as [_ M2]. inversion M2 as [|? ? _ M3]; subst. clear - M3. induction post as [|[m n|? ? ?] l IH]; cbn [wire]; [lia| |]; inversion M3 as [|? ? H3 H4]; subst; specialize (IH H4); cbn in H3; lia. }
      rewrite Wa in *. cbn [wire] in *. destruct ev; lia.
    + clear - C Q. revert C. generalize (mkg 0 5000000 5000000) as g0. induction pre as [|x pre IH]; intros g0 C; cbn [counted app] in *; [injection C as ->; rewrite Q; reflexivity|].
      destruct (counts g0 x); [apply IH, C|reflexivity].
  - exists ev. split; [apply in_elt|exact Q].
Qed.
Print Assumptions rtmp_modest_publisher.

(** Concrete clients.  Windows of any size and sign are taken, one of three bytes is not.
    A publisher whose byte count comes within a window of 2^31, and one that stays below.
    A single AAC byte; connect with null; a packet without its body. *)
Definition rtmp_win (v : list Z) : rev := RvMsg (mkrm 6 0 0 2 v) 20.
Definition rtmp_aud (b : list Z) (n : Z) : rev := RvMsg (mkrm 8 0 1 4 b) n.
Example rtmp_all_cases :
  fst (pre_connect (fun _ _ => None) 3073 [] [rtmp_win [127; 255; 255; 255; 2]; rtmp_win [0; 0; 0; 0]; rtmp_win [128; 0; 0; 0]]) = CWait /\
  counted (mkg 3073 5000000 5000000) [rtmp_win [127; 255; 255; 255; 2]; rtmp_win [128; 0; 0; 0]] = Some (mkg 3113 (- 2 ^ 31) (3113 - 2 ^ 31)) /\
  fst (pre_connect (fun _ _ => None) 3073 [] [rtmp_win [127; 255; 255; 255; 2]; rtmp_win [1; 2; 3]]) = CUB /\
  snd (fst (rtmp_decode (mkse hook_new [] []) [rtmp_aud [0xAF; 1; 7] (2 ^ 31 - 5000000)])) = DUB /\
  snd (fst (rtmp_decode (mkse hook_new [] []) [rtmp_aud [0xAF; 1; 7] (2 ^ 31 - 5000001)])) = DWait /\
  snd (fst (rtmp_decode (mkse hook_new [] []) [rtmp_aud [0xAF; 1; 7] 15; rtmp_aud [0xAF] 13])) = DUB /\
  single_aac (rtmp_aud [0xAF] 13) /\
  Forall (modest 5000000) [rtmp_aud [0xAF; 1; 7] 15; rtmp_aud [0xAF] 13; rtmp_win [0; 1; 0; 0]] /\
  (let lib := fun (_ : bool) (_ : list Z) => Some [AStr (str "connect"); ANum (mknum 0 (Some 1)); ANull] in
   null_connect lib (RvMsg (mkrm 20 0 0 3 [2]) 30) /\ fst (pre_connect lib 3073 [] [RvMsg (mkrm 20 0 0 3 [2]) 30]) = CUB) /\
  lost_body (RvFail 0 20 40) /\ fst (pre_connect (fun _ _ => None) 3073 [] [RvFail 0 20 40]) = CUB.
Proof.
  do 6 (split; [vm_compute; reflexivity|]).
  split. { exists (mkrm 8 0 1 4 [0xAF]), 13, 0xAF. split; [reflexivity|]. split; [reflexivity|]. split; reflexivity. }
  split.
  { constructor; [split; [lia|]; split; intros H; exfalso; [destruct H|]; discriminate|].
    constructor; [split; [lia|]; split; intros H; exfalso; [destruct H|]; discriminate|].
    constructor; [split; [lia|]; split; intros _; [discriminate|vm_compute; split; discriminate]|]. constructor. }
  split. { split; [exists (mkrm 20 0 0 3 [2]), 30, (mknum 0 (Some 1)), []; split; [reflexivity|]; split; [right; right; right; reflexivity|reflexivity]|vm_compute; reflexivity]. }
  split; [|vm_compute; reflexivity]. exists 20, 40. split; [reflexivity|]. right. split; [right; right; right; reflexivity|discriminate].
Qed.
