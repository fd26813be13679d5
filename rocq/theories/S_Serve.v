(** Starting the process, transports and certificates. *)
From Verif Require Import Base M_Conf M_Host S_Host S_Url M_Url M_Serve.

(** A file name given relative to the current directory: a first component of
    letters, digits, '.' and '-', and a rest of printable characters. *)
Definition relative_name (name : list Z) : Prop :=
  exists first path, url_wf (str "file") first None path None /\ name = first ++ match path with Some p => p | None => [] end.
(** An absolute file name. *)
Definition absolute_name (name : list Z) : Prop := exists rest, name = 47 :: rest /\ Forall path_c rest.
(** The URL library refuses URLs whose host is empty. *)
Definition refuses_empty_host (lib : url_lib) : Prop :=
  forall schema rest, schema <> [] -> Forall alpha schema -> Forall path_c rest -> lib (schema ++ str "://" ++ 47 :: rest) = None.

(** The transport a server block asks for. *)
Definition asks (s : cmod) (t : tkind) : Prop :=
  match t with
  | TkSrt => opt_str s (str "transport") = str "srt"
  | TkTls => opt_str s (str "transport") = str "https"
  | TkTcp => opt_str s (str "transport") <> str "srt" /\ opt_str s (str "transport") <> str "https"
  end.

(** The certificate the configuration holds for a name: that of the host that
    serves the name, if it has both files. *)
Definition certificate_for (hs : list cmod) (name crt key : list Z) : Prop :=
  exists h, serves hs name (Some h) /\ crt = opt_str h (str "ssl_crt_file") /\ key = opt_str h (str "ssl_key_file") /\
    crt <> [] /\ key <> [].
(** The library can use it. *)
Definition usable (L : certlib) (crt key : list Z) : Prop := cl_crt L crt = true /\ cl_key L key = true /\ cl_pair L crt key = true.
