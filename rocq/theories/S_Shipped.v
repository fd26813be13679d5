(** What a server with one of the delivered configuration files does, as a
    table: per port the protocol and transport, per name of a host what happens to requests. *)
From Verif Require Import Base M_Conf M_Host M_Stream M_Serve.

(** A request is passed to an address and port; or it plays and publishes
    streams: which format may be published ("all" is every one), if any, and the
    address and port a missing stream is fetched from, if it is. *)
Inductive service := ToProxy (addr : string) (port : Z) | ToStream (format : option string) (source : option (string * Z)).
Definition formats_allow (f : option string) (fmt : list Z) : bool :=
  match f with None => false | Some f => eqb_list (str f) (str "all") || eqb_list (str f) fmt end.
(** That a host does what the table says, for every caller's default port 80. *)
Definition does (h : cmod) (s : service) : Prop :=
  match s with
  | ToProxy a p => adapter h = AProxy /\ proxy_info h 80 = (str a, p)
  | ToStream f src => adapter h = AStream /\ (forall fmt, is_source h && support_publish h fmt = formats_allow f fmt) /\
      match src with
      | None => is_edge h = false
      | Some (a, p) => is_edge h = true /\ proxy_info h 80 = (str a, p)
      end
  end.
Definition hosts_table := list (string * service).
Definition table := list (Z * (proto * tkind * hosts_table)).
(** The entry for a name, compared byte by byte. *)
Inductive entry {K A} (l : list (K * A)) (k : K) : option A -> Prop :=
| en_some a : In (k, a) l -> entry l k (Some a)
| en_none : (forall a, ~ In (k, a) l) -> entry l k None.
Definition by_bytes (t : hosts_table) : list (list Z * service) := map (fun x => (str (fst x), snd x)) t.
(** Listeners that behave as a table, for every port and every name. *)
Definition behaves (ls : list listener) (t : table) : Prop :=
  forall port, exists e, entry t port e /\
  match e with
  | None => get_server port ls = None
  | Some (pr, tk, hs) => exists l, get_server port ls = Some l /\ ls_proto l = pr /\ transport_of (sv_conf (ls_server l)) = tk /\
      forall name, exists s, entry (by_bytes hs) name s /\
        match s with
        | None => route ls port name = Some None
        | Some s => exists h, route ls port name = Some (Some h) /\ cm_name h = name /\ does h s
        end
  end.
(** A file starts a server that behaves as a table if its ports can be opened,
    and fails with the system's error if one cannot: the first in the order of
    the table. *)
Definition starts_as (text : list Z) (t : table) : Prop :=
  exists root, load_conf text = Ok root /\
  forall can_listen,
    ((forall p, In p (map fst t) -> can_listen p = Ok tt) -> exists ls, install can_listen root = Ok ls /\ map ls_port ls = map fst t /\ behaves ls t) /\
    (forall a p b e, map fst t = a ++ p :: b -> (forall q, In q a -> can_listen q = Ok tt) -> can_listen p = Err e -> install can_listen root = Err e).

(** The hosts of the globalhost block of conf/sps.conf:18-53, and of
    conf/srt.conf:13-38 and conf/https.conf:13-39. *)
Definition sps_global : hosts_table :=
  [("www.github.com"%string, ToProxy "github" 80);
   ("flv.com"%string, ToStream None None);
   ("127.0.0.1"%string, ToStream (Some "all"%string) None);
   ("localhost"%string, ToStream None (Some ("127.0.0.1"%string, 80)))].
Definition other_global : hosts_table :=
  [("www.github.com"%string, ToProxy "github.com" 80);
   ("flv.com"%string, ToStream None None);
   ("127.0.0.1"%string, ToStream (Some "all"%string) None)].
Definition sps_table : table :=
  [(80, (PHttp, TkTcp, ("github80.com"%string, ToProxy "github.com" 80) :: sps_global));
   (8000, (PHttp, TkTcp, ("github8000.com3"%string, ToProxy "github.com3" 80) :: sps_global));
   (1935, (PRtmp, TkTcp, sps_global))].
Definition srt_table : table :=
  [(8001, (PHttp, TkSrt, ("github8001.com"%string, ToProxy "www.baidu.com" 80) :: other_global));
   (1935, (PRtmp, TkSrt, other_global));
   (6000, (PSrt, TkSrt, other_global))].
Definition https_table : table :=
  [(445, (PHttp, TkTls, ("localhost"%string, ToProxy "www.baidu.com" 80) :: ("www.baidu.com"%string, ToProxy "www.baidu.com" 80) :: other_global))].
