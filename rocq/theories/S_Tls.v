(** What a user of TCP and TLS sockets relies on. *)
From Verif Require Import Base M_IO M_Tls.

(** What the TLS library promises of a handshake with two flights each way.
    [R1 e r p]: [p] is what has come of the client's first flight and [r] the part
    of it the engine has not taken; [R2] likewise for the second; [Dn]: done.
    Bytes behind a flight stay in the input buffer. *)
Record two_flights {E} (g : engine E) (R1 R2 : E -> list Z -> list Z -> Prop) (Dn : E -> Prop) (ch f1 ck f2 : list Z) : Prop := mktf {
  tf_more1 : forall e r p d, R1 e r p -> (exists q, q <> [] /\ p ++ d ++ q = ch) ->
    exists e' r', hs_step g e (r ++ d) = (HsWant, e', r', []) /\ R1 e' r' (p ++ d);
  tf_full1 : forall e r p d x, R1 e r p -> p ++ d = ch ++ x ->
    exists e', hs_step g e (r ++ d) = (HsWant, e', x, f1) /\ R2 e' [] [];
  tf_more2 : forall e r p d, R2 e r p -> (exists q, q <> [] /\ p ++ d ++ q = ck) ->
    exists e' r', hs_step g e (r ++ d) = (HsWant, e', r', []) /\ R2 e' r' (p ++ d) /\ (r ++ d = [] -> r' = []);
  tf_full2 : forall e r p d x, R2 e r p -> p ++ d = ck ++ x ->
    exists e', hs_step g e (r ++ d) = (HsDone, e', x, f2) /\ Dn e';
  tf_done : forall e x, Dn e -> exists e', hs_step g e x = (HsDone, e', x, []) /\ Dn e' }.

(** [ds] are pieces of a flight, none empty. *)
Definition pieces_of (ds : list (list Z)) (flight : list Z) : Prop := concat ds = flight /\ Forall (fun d => d <> []) ds.

(** What the TLS library promises of decryption: [dec c] is the plaintext of
    the ciphertext [c]; more ciphertext only adds to it.  [R e r c q]: of [c],
    all fed so far, [q] has been handed out, and [r] not been taken. *)
Record decrypts {E} (g : reader E) (R : E -> list Z -> list Z -> list Z -> Prop) (dec : list Z -> list Z) : Prop := mkdec {
  dc_mono : forall c d, exists q, dec (c ++ d) = dec c ++ q;
  dc_fed : forall e r c q d, R e r c q -> R e (r ++ d) (c ++ d) q;
  dc_step : forall e r c q n res e' r', R e r c q -> 0 < n -> rd_step g e r n = (res, e', r') ->
    match res with
    | RdData d => 0 < zlen d <= n /\ (exists t, dec c = (q ++ d) ++ t) /\ R e' r' c (q ++ d)
    | RdWant => q = dec c /\ R e' r' c q
    | RdFail => (exists t, dec c = q ++ t) /\ R e' r' c q
    end }.

(** The connections whose handshake went well. *)
Fixpoint good_conns (l : list (nat * hend)) : list nat :=
  match l with [] => [] | (i, HeOk) :: m => i :: good_conns m | _ :: m => good_conns m end.
(** The data of the successful results. *)
Fixpoint tls_oks {A} (rs : list (res A)) : list A :=
  match rs with [] => [] | Ok a :: l => a :: tls_oks l | _ :: l => tls_oks l end.
(** What a list of write rounds encrypts to. *)
Fixpoint encs (l : list twr) : list Z :=
  match l with TwTook _ enc _ :: m => enc ++ encs m | _ => [] end.
