(** Reading through a TLS socket. *)
From Verif Require Import Base M_IO S_IO M_Http S_Http M_Tls S_Tls M_Https.

(** A program that asks for at least one byte each time, and reads no more after
    the first error. *)
Inductive reads_ok {A} : prog A -> Prop :=
| ro_ret a : reads_ok (PRet a)
| ro_read n k ke : 0 < n -> (forall d, 0 < zlen d <= n -> reads_ok (k d)) -> (forall c, exists a, ke c = PRet a) -> reads_ok (PRead n k ke).

(** The library can fail to decrypt. *)
Definition lib_fails {E} (g : reader E) : Prop := exists e r n e' r', rd_step g e r n = (RdFail, e', r').

(** The body of a request: [wire ++ more] is what follows the head; it holds
    [body], and [more] belongs to the next request. *)
Definition framed (chunked_cl : bool * Z) (stream body more : list Z) : Prop :=
  if fst chunked_cl then chunked stream body more
  else stream = body ++ more /\ snd chunked_cl = zlen body /\ 0 < zlen body < 2 ^ 31.
