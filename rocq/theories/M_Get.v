(** HTTP over SRT: programs that read (M_Https.v) over an SRT socket, and the
    download tool tools/srt_http_client.cpp.  StSrtServerSocket::accept
    (src/sys/st/io/sps_sys_st_io_srt.cpp:782-797) and ClientSocketFactory::create_ss
    (src/io/sps_io_socket.cpp:161-180) wrap the SRT socket in a Socket, whose
    read_fully (src/io/sps_io_socket.cpp:79-94) loops over read: the read_fully of
    the SRT socket (:687-705) is not called. *)
From Verif Require Import Base M_IO M_Text M_Http M_Srt M_Https M_Host M_Edge M_File.

(** StSrtSocket::read (M_Srt.v [srt_read]) behind Socket::read
    (sps_io_socket.cpp:96-98). *)
Fixpoint run_srt {A} (p : prog A) (s : srts) : res A * srts :=
  match p with
  | PRet a => (Ok a, s)
  | PRead n k ke =>
      match srt_read s n with
      | (Ok d, s1) => run_srt (k d) s1
      | (Err c, s1) => run_srt (ke c) s1
      | (UB, s1) => (UB, s1)
      | (Fuel, s1) => (Fuel, s1)
      end
  end.

(** The loop of SrtHttpClient::get, tools/srt_http_client.cpp:76-89: reads of
    1023 bytes until the first error.  The pieces, and whether it ended. *)
Fixpoint get_loop (fuel : nat) : prog (list (list Z) * bool) :=
  match fuel with
  | O => PRet ([], false)
  | S f => PRead 1023
             (fun d => pbind (get_loop f) (fun x => PRet (d :: fst x, snd x)))
             (fun _ => PRet ([], true))
  end.
(** SrtHttpClient::get, :46-90, once the request is sent: the pieces handed to
    the file and the value returned.  HttpUrlProtocol::open
    (src/io/url/sps_io_url_http.cpp:85-96) returns 0 without a response if the parser
    takes nothing; the read at :78 then goes through a null pointer.  The status
    of the response is not looked at.  The file is opened (:67-74) after the
    answer's head is read. *)
Definition get_prog (lib : list Z -> Z * rsp_info) (fuel : nat) : prog (res (list (list Z) * Z)) :=
  pbind (head_prog MAX_HEADER) (fun r =>
    match r with
    | Ok head =>
        let '(n, ri) := lib head in
        if n <? 0 then PRet (Ok ([], -1)) else if n =? 0 then PRet UB else
        pbind (over_up (get_loop fuel) (hb_new (ri_chunked ri) (ri_cl ri))) (fun x =>
          PRet (match x with
                | Ok (ds, ended) => if ended : bool then Ok (ds, -2) else Fuel
                | Err c => Err c | UB => UB | Fuel => Fuel
                end))
    | Err c => PRet (if c =? 0 then UB else Ok ([], -1))
    | UB => PRet UB
    | Fuel => PRet Fuel
    end).
(** main, :105-126, for a connection that is made and a request that is sent: the
    file afterwards (None: it was never opened) and the exit status.  [file]:
    the file of the fourth argument as it can be opened, None without the
    argument or if it cannot; [dev]: whether each write to it succeeds, which is
    not looked at (:84-85). *)
Definition get_main (lib : list Z -> Z * rsp_info) (fuel : nat) (s : srts) (file : option fstm) (dev : list bool)
  : res (option fstm * Z) :=
  match fst (run_srt (get_prog lib fuel) s) with
  | Ok (Ok (ds, r)) =>
      Ok (if r =? -1 then None else option_map (fun f => snd (f_writes f ds dev)) file, 0)
  | Ok (Err c) => Err c
  | Ok UB | UB => UB
  | Ok Fuel | Fuel => Fuel
  | Err c => Err c
  end.
