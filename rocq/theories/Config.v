(** The configuration of a node: command line (bin/dtnd.rs), configuration file
    (dtnconfig.rs) and start of the daemon (dtnd/daemon.rs). *)
From stdpp Require Import prelude strings pretty gmap.
From Coq Require Import Ascii NArith ZArith Lia.
From Verif Require Import Core Peers Apps Httpd Transfers.
Open Scope N_scope.

(** ** Text *)
(** str::split at a character: all parts, one at least *)
Fixpoint split_at (c : Ascii.ascii) (s : string) : list string :=
  match s with
  | "" => [""]
  | String x s =>
      if bool_decide (x = c) then "" :: split_at c s
      else match split_at c s with p :: ps => String x p :: ps | [] => [String x ""] end
  end.
(** str::parse for an unsigned type with values below [lim]: a plus sign may
    come first *)
Definition parse_uint (lim : N) (s : string) : option N :=
  let s := match given 43 s with Some r => r | None => s end in
  match take_digits s with
  | (d :: ds, "") => if digits_value (d :: ds) <? lim then Some (digits_value (d :: ds)) else None
  | _ => None
  end.
Notation settings := (gmap string string).

(** ** What the user gives *)
(** The options (bin/dtnd.rs:53-287); clap has checked the ports to be u16. *)
Record cli := Cli {
  o_v4 : bool; o_v6 : bool; o_reports : bool; o_ecla : bool; o_ecla_port : option N; o_parallel : bool; o_unsafe : bool; o_period : bool;
  o_workdir : option string; o_nodeid : option string; o_disable_nd : bool; o_interval : option string; o_webport : option N;
  o_janitor : option string; o_timeout : option string; o_routing : option string; o_routing_opts : list string; o_db : option string;
  o_clas : list string; o_globals : list string; o_services : list string; o_dests : list string; o_statics : list string;
  o_endpoints : list string }.
(** The configuration file as the config crate returns it; values have the kind
    expected (others are ignored or stop the start) and tables are lists in
    the order in which they are gone through. *)
Record file := File {
  f_reports : option bool; f_parallel : option bool; f_unsafe : option bool; f_v4 : option bool; f_v6 : option bool; f_period : option bool;
  f_nodeid : option string; f_routing : option string; f_routing_opts : list (string * settings); f_workdir : option string;
  f_db : option string; f_webport : option Z; f_janitor : option string; f_interval : option string; f_timeout : option string;
  f_statics : list string; f_endpoints : list string; f_clas : list (string * settings); f_globals : list (string * settings);
  f_ecla : option bool; f_ecla_port : option Z; f_services : list (string * string); f_dests : list string }.
(** dtnconfig.rs:16-45; times in nanoseconds; left out: debug, nodeid (the text of host_eid) *)
Record conf := Conf {
  c_v4 : bool; c_v6 : bool; c_reports : bool; c_ecla : bool; c_ecla_port : N; c_parallel : bool; c_unsafe : bool; c_period : bool;
  c_custom : bool; c_workdir : string; c_host : eid; c_disable_nd : bool; c_interval : N; c_webport : N; c_janitor : N; c_timeout : N;
  c_routing : string; c_routing_opts : gmap string settings; c_db : string; c_clas : list (N * settings); c_globals : gmap N settings;
  c_services : gmap N string; c_dests : gmap string N; c_statics : list peer; c_endpoints : list string }.

Section config.
(** External: EndpointID::try_from; humantime::parse_duration (ns); the
    convergence layers by name (CLAsAvailable::from_str); parse_peer_url (modelled
    in Httpd.v); IPv6 socket addresses; the stores compiled in; the current
    directory and the random node name *)
Context (parse_eid : string -> option eid) (duration : string -> option N) (cla_id : string -> option N) (peer_of : string -> option peer).
Context (parse_v6 : string -> option (string * N)) (stores : list string) (cwd : string) (rnd : string).

(** dtnconfig.rs:262-294 new *)
Definition conf_new : conf :=
  Conf true false false false 0 false false false false cwd (Dtn rnd "") false 2000000000 3000 10000000000 20000000000
    "epidemic" ∅ "mem" [] ∅ ∅ ∅ [] [].
(** bp7 EndpointID::is_node_id *)
Definition is_node_id (e : eid) : bool := match e with Dtn _ s => bool_decide (s = "") | Ipn _ s => s =? 0 | DtnNone => false end.
(** bin/dtnd.rs:324-335, dtnconfig.rs:95-106: [None]: panics.  In the file
    the name is followed by no slash, which makes no difference. *)
Definition node_of (s : string) : option eid :=
  match valid_node s with
  | None => None
  | Some true => Some (match parse_uint (2^64) s with Some n => Ipn n 0 | None => Dtn s "" end)
  | Some false => match parse_eid s with Some e => if is_node_id e then Some e else None | None => None end
  end.
(** dtnconfig.rs:328-353 add_destination; [None]: panics *)
Definition sock_text (a : sockaddr) : string :=
  match a with
  | SV4 a b c d p => pretty a +:+ "." +:+ pretty b +:+ "." +:+ pretty c +:+ "." +:+ pretty d +:+ ":" +:+ pretty p
  | SV6 t p => "[" +:+ t +:+ "]:" +:+ pretty p
  end.
Definition dest_addr (s : string) : option sockaddr :=
  match parse_sock parse_v6 s with Some a => Some a | None => parse_sock parse_v6 (s +:+ ":3003") end.
Definition add_destination (v4 v6 : bool) (m : gmap string N) (s : string) : option (gmap string N) :=
  match dest_addr s with
  | None => None
  | Some a => Some (if (match a with SV4 _ _ _ _ _ => v4 | SV6 _ _ => v6 end) then <[sock_text a := 0]> m else m)
  end.
(** a loop that may panic *)
Fixpoint all_of {A B} (f : B -> A -> option B) (m : B) (l : list A) : option B :=
  match l with [] => Some m | x :: l => m' ← f m x; all_of f m' l end.
(** dtnconfig.rs:357-383; [None]: an error, on which the callers panic *)
Definition check_destinations (v4 v6 : bool) (m : gmap string N) : option (gmap string N) :=
  if bool_decide (m = ∅) then
    match v4, v6 with
    | true, true => Some (<["[FF02::1]:3003" := 0]> (<["224.0.0.26:3003" := 0]> m))
    | true, false => Some (<["224.0.0.26:3003" := 0]> m)
    | false, true => Some (<["[FF02::1]:3003" := 0]> m)
    | false, false => None
    end
  else Some m.
(** dtnconfig.rs:141-160: an interval in the file *)
Definition file_time (s : option string) (dflt : N) : N :=
  match s with Some t => default 0 (duration t) | None => dflt end.
(** a number of the file cast to u16 *)
Definition as_u16 (z : Z) : N := Z.to_N (z mod 65536).
(** dtnconfig.rs:222-243 *)
Definition file_service (m : gmap N string) (x : string * string) : option (gmap N string) :=
  t ← parse_uint 256 (fst x);
  if bool_decide (is_Some (m !! t)) then None else Some (<[t := snd x]> m).
(** dtnconfig.rs:64-259 From<PathBuf> *)
Definition conf_of_file (f : file) : option conf :=
  host ← match f_nodeid f with Some s => node_of s | None => node_of rnd end;
  statics ← mapM peer_of (f_statics f);
  services ← all_of file_service ∅ (f_services f);
  let v4 := default true (f_v4 f) in
  let v6 := default false (f_v6 f) in
  dests ← all_of (add_destination v4 v6) ∅ (f_dests f);
  dests ← check_destinations v4 v6 dests;
  Some (Conf v4 v6 (default false (f_reports f)) (default false (f_ecla f)) (match f_ecla_port f with Some z => as_u16 z | None => 0 end)
    (default false (f_parallel f)) (default false (f_unsafe f)) (default false (f_period f)) false (default cwd (f_workdir f)) host false
    (file_time (f_interval f) (c_interval conf_new)) (match f_webport f with Some z => as_u16 z | None => c_webport conf_new end)
    (file_time (f_janitor f) (c_janitor conf_new)) (file_time (f_timeout f) (c_timeout conf_new))
    (default (c_routing conf_new) (f_routing f)) (list_to_map (reverse (f_routing_opts f))) (default "mem" (f_db f))
    (omap (fun x => i ← cla_id (fst x); Some (i, snd x)) (f_clas f))
    (list_to_map (reverse (omap (fun x => i ← cla_id (fst x); Some (i, snd x)) (f_globals f))))
    services dests statics (f_endpoints f)).

(** ** The command line (bin/dtnd.rs) *)
(** 298-314 *)
Definition with_flags (o : cli) : conf :=
  let c := conf_new in
  let v6 := if o_v6 o then true else c_v6 c in
  let v4 := if o_v6 o then false else c_v4 c in
  Conf (o_v4 o || v4) v6 (o_reports o || c_reports c) (o_ecla o) (default (c_ecla_port c) (o_ecla_port o)) (o_parallel o || c_parallel c)
    (o_unsafe o || c_unsafe c) (o_period o) (c_custom c) (c_workdir c) (c_host c) (c_disable_nd c) (c_interval c) (c_webport c) (c_janitor c)
    (c_timeout c) (c_routing c) (c_routing_opts c) (c_db c) (c_clas c) (c_globals c) (c_services c) (c_dests c) (c_statics c) (c_endpoints c).
(** 339-366: an interval; [None]: panics *)
Definition cli_time (s : option string) (old : N) : option N :=
  match s with
  | None => Some old
  | Some t => if bool_decide (t = "0") then Some 0 else duration t
  end.
Definition routing_algorithms : list string := ["epidemic"; "flooding"; "sink"; "external"; "sprayandwait"; "static"].
(** 368-372, 398-402: a name that is not known changes nothing *)
Definition cli_name (known : list string) (s : option string) (old : string) : string :=
  match s with Some r => if bool_decide (r ∈ known) then r else old | None => old end.
(** 373-396 *)
Definition add_routing_opt (m : gmap string settings) (s : string) : option (gmap string settings) :=
  match split_at "="%char s with
  | [key; value] =>
      match split_at "."%char key with
      | [algo; opt] => Some (<[algo := <[opt := value]> (default ∅ (m !! algo))]> m)
      | _ => None
      end
  | _ => None
  end.
(** 404-417; [config_split[1]] panics if there is no = *)
Definition cla_setting (m : settings) (s : string) : option settings :=
  match split_at "="%char s with k :: v :: _ => Some (<[k := v]> m) | _ => None end.
Definition add_cla (l : list (N * settings)) (s : string) : option (list (N * settings)) :=
  match split_at ":"%char s with
  | [] => None
  | name :: parts =>
      match cla_id name with
      | None => Some l
      | Some i => m ← all_of cla_setting ∅ parts; Some (l ++ [(i, m)])
      end
  end.
(** 419-437 *)
Definition add_global (m : gmap N settings) (s : string) : option (gmap N settings) :=
  match split_at ":"%char s with
  | [] => None
  | name :: parts =>
      match cla_id name with
      | None => Some m
      | Some i => p ← head parts; x ← cla_setting (default ∅ (m !! i)) p; Some (<[i := x]> m)
      end
  end.
(** 439-457; [None]: panics or ends with an error *)
Definition add_service (m : gmap N string) (s : string) : option (gmap N string) :=
  match split_at ":"%char s with
  | tag :: rest =>
      t ← parse_uint 256 tag;
      if bool_decide (is_Some (m !! t)) then None
      else payload ← head rest; Some (<[t := payload]> m)
  | [] => None
  end.
(** 298-485 main; [None]: the node does not start *)
Definition configure (o : cli) (cfgfile : option file) : option conf :=
  c ← match cfgfile with Some f => conf_of_file f | None => Some (with_flags o) end;
  host ← match o_nodeid o with Some s => node_of s | None => Some (c_host c) end;
  interval ← cli_time (o_interval o) (c_interval c);
  janitor ← cli_time (o_janitor o) (c_janitor c);
  timeout ← cli_time (o_timeout o) (c_timeout c);
  ropts ← all_of add_routing_opt (c_routing_opts c) (o_routing_opts o);
  clas ← all_of add_cla (c_clas c) (o_clas o);
  globals ← all_of add_global (c_globals c) (o_globals o);
  services ← all_of add_service (c_services c) (o_services o);
  dests ← all_of (add_destination (c_v4 c) (c_v6 c)) (c_dests c) (o_dests o);
  dests ← check_destinations (c_v4 c) (c_v6 c) dests;
  statics ← mapM peer_of (o_statics o);
  Some (Conf (c_v4 c) (c_v6 c) (c_reports c) (c_ecla c) (c_ecla_port c) (c_parallel c) (c_unsafe c) (c_period c) (c_custom c)
    (default (c_workdir c) (o_workdir o)) host (o_disable_nd o) interval (default (c_webport c) (o_webport o)) janitor timeout
    (cli_name routing_algorithms (o_routing o) (c_routing c)) ropts (cli_name stores (o_db o) (c_db c)) clas globals services dests
    (c_statics c ++ statics) (c_endpoints c ++ o_endpoints o)).

(** ** Start (dtnd/daemon.rs:66-165): the endpoints, peers and layers of the
    node, and which activities are started.  Sockets are left out. *)
Record started := Started {
  n_agents : list agent; n_peers : peers; n_layers : list (N * settings); n_janitor : bool; n_discovery : bool; n_ecla : bool }.
(** host_eid.new_endpoint *)
Context (new_endpoint : eid -> string -> option eid).
Definition endpoint_of (host : eid) (s : string) : option eid :=
  match parse_eid s with Some e => Some e | None => new_endpoint host s end.
Definition start (c : conf) : option started :=
  if bool_decide (c_db c ∈ stores) && bool_decide (c_routing c ∈ routing_algorithms) then
    m ← all_of (fun m p => r ← peers_add p m; Some (fst r)) ∅ (c_statics c);
    es ← mapM (endpoint_of (c_host c)) (c_endpoints c);
    Some (Started (foldl (fun l e => register e l) (register (c_host c) []) es) m (c_clas c)
      (negb (c_janitor c / 1000 =? 0)) (negb (c_disable_nd c) && negb (c_interval c / 1000 =? 0)) (c_ecla c))
  else None.
End config.
