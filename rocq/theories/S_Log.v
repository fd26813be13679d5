(** What a log statement should print: its own words and the values given to
    it, in order. *)
From Verif Require Import Base M_Text M_Log.

(** A statement as the programmer means it. *)
Inductive piece := PWords (s : list Z) | PStr (s : list Z) | PNum (n : Z) | PLong (n : Z) | PUns (n : Z) | PWide (w n : Z).
Definition text_of1 (p : piece) : list Z := match p with PWords s => s | PStr s => s | PNum n | PLong n | PUns n => decs n
  | PWide w n => repeat 32 (Z.to_nat w - length (decs n)) ++ decs n end.
Definition text_of (ps : list piece) : list Z := flat_map text_of1 ps.

(** Text as C strings can hold it. *)
Definition no_nul (s : list Z) : Prop := ~ In 0 s.
Definition no_percent (s : list Z) : Prop := ~ In 37 s.
Definition is_int (n : Z) : Prop := - 2 ^ 31 <= n < 2 ^ 31.

(** How a statement is written in C: words, [%s], [%d], [%lld], [%u] and, for
    columns, [%9d] or [%11d], with the values as arguments. *)
Definition fmt_of1 (p : piece) : list Z :=
  match p with
  | PWords s => s | PStr _ => [37; 115] | PNum _ => [37; 100] | PLong _ => [37; 108; 108; 100] | PUns _ => [37; 117]
  | PWide w _ => if w <? 10 then [37; 48 + w; 100] else [37; 48 + w / 10; 48 + w mod 10; 100]
  end.
Definition args_of1 (p : piece) : list carg :=
  match p with PWords _ => [] | PStr s => [AStr s] | PNum n | PLong n | PUns n | PWide _ n => [AInt n] end.
Definition piece_ok (p : piece) : Prop :=
  match p with PWords s => no_percent s /\ no_nul s | PStr s => no_nul s | PNum n => is_int n
  | PLong n => - 2 ^ 63 <= n < 2 ^ 63 | PUns n => 0 <= n < 2 ^ 32
  | PWide w n => 1 <= w < 100 /\ is_int n end.

(** [doubled s u]: the percent signs of [s] come in pairs, and [u] has one for
    each pair. *)
Inductive doubled : list Z -> list Z -> Prop :=
| D_nil : doubled [] []
| D_char c s u : c <> 37 -> doubled s u -> doubled (c :: s) (c :: u)
| D_pair s u : doubled s u -> doubled (37 :: 37 :: s) (37 :: u).

(** The time of a line, as people write it: [[YYYY-MM-DD hh:mm:ss.mmm] ]. *)
Definition two (n : Z) : list Z := [48 + n / 10; 48 + n mod 10].
Definition three (n : Z) : list Z := (48 + n / 100) :: two (n mod 100).
Definition four (n : Z) : list Z := two (n / 100) ++ two (n mod 100).
Definition stamp_text (y mo d h mi s ms : Z) : list Z :=
  str "[" ++ four y ++ str "-" ++ two mo ++ str "-" ++ two d ++ str " " ++ two h ++ str ":" ++ two mi ++ str ":" ++ two s
    ++ str "." ++ three ms ++ str "] ".

(** A date of our time. *)
Definition stamp_ok (t : stamp) : Prop :=
  0 <= t_year t < 10000 /\ 0 <= t_mon t < 100 /\ 0 <= t_day t < 100 /\ 0 <= t_hour t < 100 /\ 0 <= t_min t < 100
  /\ 0 <= t_sec t < 100 /\ 0 <= t_ms t < 1000.
Definition stamp_str (t : stamp) : list Z :=
  stamp_text (t_year t) (t_mon t) (t_day t) (t_hour t) (t_min t) (t_sec t) (t_ms t).

(** Where a statement stands, in front of its text. *)
Definition where_ok (w : where_) : Prop :=
  no_percent (w_file w) /\ no_nul (w_file w) /\ is_int (w_line w) /\ is_int (w_ctx w).
Definition where_text (w : where_) : list Z :=
  str "[" ++ w_file w ++ str ":" ++ decs (w_line w) ++ str "] [" ++ decs (w_ctx w) ++ str "] ".
Definition crlf2 : list Z := [13; 10].

(** The lines about clients, as they should read: in front of the first text a
    client chose, that text, and the rest. *)
Definition http_before (ip : list Z) (port : Z) (method host : list Z) : list Z :=
  str "Request " ++ ip ++ str ":" ++ decs port ++ str " " ++ method ++ str " " ++ host ++ str " ".
Definition http_after (params : list Z) (chunked : bool) (cl : Z) : list Z :=
  str " " ++ params ++ str ", chunked " ++ decs (if chunked then 1 else 0) ++ str ", content-length " ++ decs cl ++ crlf2.
Definition no_host_after (eno : Z) (etext : list Z) : list Z :=
  str " (" ++ decs eno ++ str " " ++ etext ++ str ")" ++ crlf2.
Definition rtmp_before (ip : list Z) (port : Z) : list Z :=
  str "Request client " ++ ip ++ str ":" ++ decs port ++ str ", ".
Definition play_after (playing : Z) : list Z := str ", playing: " ++ decs playing ++ crlf2.
Definition publish_after (kind : list Z) (playing : Z) : list Z := str ", " ++ kind ++ str ", playing " ++ decs playing ++ crlf2.
Definition srt_after (url mode : list Z) : list Z := str ", url " ++ url ++ str ", mode " ++ mode ++ crlf2.
