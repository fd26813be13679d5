(** How a configuration is written, and what it says. *)
From Verif Require Import Base M_Conf.

Definition blank (c : Z) : Prop := c = 32 \/ 9 <= c <= 13.
Definition word (w : list Z) : Prop := w <> [] /\ Forall (fun c => ~ blank c) w.
(** The words of a line. *)
Inductive tokens : list Z -> list (list Z) -> Prop :=
| tk_end b : Forall blank b -> tokens b []
| tk_word b w l ws : Forall blank b -> word w -> (l = [] \/ exists c l', l = c :: l' /\ blank c) ->
    tokens l ws -> tokens (b ++ w ++ l) (w :: ws).
Definition ends_in (w : list Z) (c : Z) : Prop := exists w', w = w' ++ [c].
Definition unended (w : list Z) : Prop := ~ ends_in w 59 /\ ~ ends_in w 123 /\ ~ ends_in w 125.
Definition hash (w : list Z) : Prop := exists w', w = 35 :: w'.
Definition plain (w : list Z) : Prop := word w /\ unended w.
(** What may follow the end of a directive: nothing or a comment. *)
Definition tail_ok (ts : list (list Z)) : Prop := ts = [] \/ exists t ts', ts = t :: ts' /\ hash t.

(** ** The lines of a configuration *)
(** "name value value;" with the semicolon attached or on its own. *)
Definition item_line (n : list Z) (vs : list (list Z)) (l : list Z) : Prop :=
  plain n /\ ~ hash n /\ Forall plain vs /\
  exists tail, tail_ok tail /\
    (tokens l (n :: vs ++ [59] :: tail) \/
     exists vs0 v, vs = vs0 ++ [v] /\ tokens l (n :: vs0 ++ (v ++ [59]) :: tail)).
(** "type name {" with a free-standing brace. *)
Definition start_line (t : list Z) (ns : list (list Z)) (l : list Z) : Prop :=
  plain t /\ ~ hash t /\ Forall plain ns /\ exists tail, tail_ok tail /\ tokens l (t :: ns ++ [123] :: tail).
Definition end_line (l : list Z) : Prop := exists tail, tail_ok tail /\ tokens l ([125] :: tail).
(** An empty line, or a comment none of whose words ends in ; { or }. *)
Definition skip_line (l : list Z) : Prop :=
  tokens l [] \/ exists w ws, tokens l (w :: ws) /\ hash w /\ unended w /\ Forall unended ws.

(** ** The contents *)
Inductive entry :=
| EItem (n : list Z) (vs : list (list Z))
| EBlock (t : list Z) (ns : list (list Z)) (body : list entry).
Inductive writes : list entry -> list (list Z) -> Prop :=
| wr_nil : writes [] []
| wr_skip l es ls : skip_line l -> writes es ls -> writes es (l :: ls)
| wr_item n vs l es ls : item_line n vs l -> writes es ls -> writes (EItem n vs :: es) (l :: ls)
| wr_block t ns body l lb le es ls : start_line t ns l -> writes body lb -> end_line le -> writes es ls ->
    writes (EBlock t ns body :: es) (l :: lb ++ le :: ls).

(** Words with one blank between them. *)
Fixpoint spaced (ws : list (list Z)) : list Z :=
  match ws with [] => [] | [w] => w | w :: ws' => w ++ 32 :: spaced ws' end.
(** The kind of an option of a block type, if it has one of that name. *)
Definition option_kind (t n : list Z) : option okind :=
  match options_of t with Some os => match find_opt os n with Some (k, _) => Some k | None => None end | None => None end.
(** The settings and the blocks of a body; a name that is no option says nothing. *)
Definition settings (t : list Z) (es : list entry) : list (list Z * list Z) :=
  flat_map (fun e => match e with
                     | EItem n vs => match option_kind t n with Some _ => [(n, spaced vs)] | None => [] end
                     | EBlock _ _ _ => []
                     end) es.
Fixpoint block_of (e : entry) : list cmod :=
  match e with
  | EItem _ _ => []
  | EBlock t ns body => [CMod t (spaced ns) (settings t body) (flat_map block_of body)]
  end.
(** Which blocks may stand in which. *)
Definition nests (outer inner name : list Z) : Prop :=
  (In outer [str "http"; str "rtmp"; str "srt"] -> inner = str "server") /\
  (In outer [str "server"; str "globalhost"] -> inner = str "host" /\ name <> []) /\
  (outer = str "host" -> inner = str "stream" \/ inner = str "upstream").
Definition block_types : list (list Z) :=
  [str "http"; str "rtmp"; str "srt"; str "server"; str "host"; str "globalhost"; str "stream"; str "upstream"].
Inductive entry_ok (t : list Z) : entry -> Prop :=
| eo_item n vs : option_kind t n <> Some OSub -> (option_kind t n = Some OBool -> vs <> []) -> entry_ok t (EItem n vs)
| eo_block t' ns body : In t' block_types -> nests t t' (spaced ns) -> Forall (entry_ok t') body ->
    entry_ok t (EBlock t' ns body).

(** ** Balance *)
(** How much deeper a line leads. *)
Inductive line_delta (l : list Z) : Z -> Prop :=
| ld_skip ws : tokens l ws -> (ws = [] \/ exists w ws', ws = w :: ws' /\ hash w) -> line_delta l 0
| ld_end ws w tail c d : tokens l (ws ++ w :: tail) -> (forall w1 ws1, ws ++ [w] = w1 :: ws1 -> ~ hash w1) ->
    Forall unended ws -> ends_in w c -> tail_ok tail ->
    (c = 59 /\ d = 0 \/ c = 123 /\ d = 1 \/ c = 125 /\ d = -1) -> line_delta l d.
Fixpoint total (ds : list Z) : Z := match ds with [] => 0 | d :: ds' => d + total ds' end.
Definition balanced (ls : list (list Z)) : Prop :=
  exists ds, Forall2 line_delta ls ds /\ (forall n, 0 <= total (firstn n ds)) /\ total ds = 0.
(** A line whose first word is [w]. *)
Definition leads_with (w l : list Z) : Prop := exists ws, tokens l (w :: ws).

(** ** The loaded tree *)
Inductive shaped : cmod -> Prop :=
| sh t n sets subs :
    Forall (fun s => nests t (cm_type s) (cm_name s) /\ shaped s) subs ->
    Forall (fun p => exists k, option_kind t (fst p) = Some k /\ k <> OSub) sets ->
    shaped (CMod t n sets subs).

(** ** The manual: the settings of each kind of block, whether a value is a text,
    a number or on/off, and what holds if a block does not say. *)
Inductive vkind := Text | Number | Switch.
Definition manual : list (string * string * vkind * string) :=
  [("http", "keepalive_timeout", Number, "10"); ("http", "access_log", Text, "access.log");
   ("rtmp", "keepalive_timeout", Number, "10"); ("rtmp", "access_log", Text, "access.log");
   ("srt", "keepalive_timeout", Number, "10"); ("srt", "access_log", Text, "access.log");
   ("srt", "srt_tlpktdrop", Number, "0"); ("srt", "srt_nakreport", Number, "0"); ("srt", "srt_transtype", Text, "live");
   ("server", "listen_port", Number, "80"); ("server", "server_name", Text, ""); ("server", "transport", Text, "tcp");
   ("server", "recv_timeout", Number, "-1"); ("server", "send_timeout", Number, "-1"); ("server", "reuse_port", Switch, "off");
   ("server", "backlog", Number, "1024"); ("server", "ssl_key_file", Text, ""); ("server", "ssl_crt_file", Text, "");
   ("host", "enabled", Switch, "on"); ("host", "pass_proxy", Text, ""); ("host", "pass_url", Text, "");
   ("host", "role", Text, "edge"); ("host", "type", Text, "proxy"); ("host", "edge_avformat", Text, "-");
   ("host", "ssl_key_file", Text, ""); ("host", "ssl_crt_file", Text, "");
   ("upstream", "name", Text, "unknown upstream name"); ("upstream", "server", Text, "unknown upstream server"); ("upstream", "keepalive", Number, "10");
   ("stream", "avformat", Text, "-"); ("stream", "edge", Switch, "on"); ("stream", "pass_proxy", Text, "-")]%string.
Definition setting (t n : list Z) (k : vkind) (d : list Z) : Prop :=
  exists t' n' d', In (t', n', k, d') manual /\ t = str t' /\ n = str n' /\ d = str d'.
(** The names that stand for blocks inside a block. *)
Definition block_names : list (string * string) :=
  [("http", "server"); ("rtmp", "server"); ("srt", "server"); ("server", "host"); ("globalhost", "host")]%string.
