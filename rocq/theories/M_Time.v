(** The clock and the hexadecimal dump of src/util/sps_util_time.cpp. *)
From Verif Require Import Base M_Text.

(** update_time, src/util/sps_util_time.cpp:39-47; get_time, :49-51, returns the same.
    [r] is the answer of gettimeofday: None when it fails, otherwise tv_sec and tv_usec,
    both signed 64 bit integers.  The sum is computed in that type, where an overflow is
    undefined, and returned as a uint64_t (src/util/sps_util_typedef.hpp:39). *)
Definition update_time (r : option (Z * Z)) : res Z :=
  match r with
  | None => Ok 0
  | Some (s, u) =>
      let fits n := (- 2 ^ 63 <=? n) && (n <? 2 ^ 63) in
      if fits (s * 1000) && fits (s * 1000 + Z.quot u 1000)
      then Ok ((s * 1000 + Z.quot u 1000) mod 2 ^ 64) else UB
  end.

(** [(int) msg[i]], :57: char is signed (x86); std::hex prints the int as an unsigned of
    32 bits. *)
Definition char_int (b : Z) : Z := (if b <? 128 then b else b - 256) mod 2 ^ 32.
(** to_hex, :53-61, with the text "hex: 0x" in front; [msg] holds the [len] bytes. *)
Definition to_hex (msg : list Z) : list Z :=
  [104; 101; 120; 58; 32; 48; 120] ++ flat_map (fun b => hexs (char_int b) ++ [32]) msg.
