(** Uploads. *)
From Verif Require Import Base M_Https.

(** A program that asks for at least one byte each time, reads no more after the
    first error, and after a read that brings nothing asks again, ready for the
    same errors. *)
Inductive reads_body {A} : prog A -> Prop :=
| rb_ret a : reads_body (PRet a)
| rb_read n k ke : 0 < n -> (forall d, 0 < zlen d <= n -> reads_body (k d)) -> (forall c, exists a, ke c = PRet a) ->
    (exists n' k' ke', k [] = PRead n' k' ke' /\ 0 < n' /\ forall c, ke' c = ke c) -> reads_body (PRead n k ke).
