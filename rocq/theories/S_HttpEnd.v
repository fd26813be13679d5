(** How long an HTTP connection lasts. *)
From Verif Require Import Base S_IO M_Text M_IO M_Packet M_Http M_Https M_Upload M_HttpConn.

Definition ends_with (s e : list Z) : Prop := exists a, s = a ++ e.
(** Whatever upload begins somewhere in [s], its reader comes to an end by itself. *)
Definition readers_end (g : hcfg) (s : list Z) : Prop := forall f chunked len t ps, nonempty_chunks (t_chunks t) -> ends_with s (t_stream t) ->
  fst (run_plain (over_body (hg_decode g f) (hb_new chunked len)) t) <> Ok (Ok (ps, Fuel)).
