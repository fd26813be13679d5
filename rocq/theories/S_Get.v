(** HTTP over SRT: what is relied on. *)
From Verif Require Import Base M_IO M_Srt M_File.

(** What a receiver gets of the library's answers: messages of the usual size,
    with waits between them, and then the first error. *)
Inductive arrives : list srcv -> list (list Z) -> Z -> Prop :=
| ar_msg d l ms c : 1 <= zlen d <= 1316 -> arrives l ms c -> arrives (SvMsg d :: l) (d :: ms) c
| ar_waited l ms c : arrives l ms c -> arrives (SvAgain 0 :: l) ms c
| ar_wait_fails e l : e <> 0 -> arrives (SvAgain e :: l) [] e
| ar_fails l : arrives (SvFail :: l) [] (-1)
| ar_closed l : arrives (SvClosed :: l) [] ERROR_SRT_SOCKET_CLOSED.

(** An SRT sender that was told every write is sent: [ms] are its messages. *)
Inductive sent : list (list Z) -> list (list Z) -> Prop :=
| sent_none : sent [] []
| sent_write w ws evs m ms : srt_write evs w = (m, Ok tt) -> sent ws ms -> sent (w :: ws) (m ++ ms).
