(** The command line tools (bin/dtnrecv.rs, bin/dtnsend.rs, bin/dtnquery.rs, bin/dtntrigger.rs) on
    top of the daemon's interfaces (Httpd.v, Apps.v).  Connecting to the daemon
    succeeds; an answer that breaks off ends a tool with a panic.  URLs: the
    arguments put into a query are taken to arrive as they are (the client
    encodes some characters). *)
From stdpp Require Import prelude strings pretty gmap.
From Coq Require Import NArith Lia.
From Verif Require Import Core StoreMem Peers Apps Httpd.
Open Scope N_scope.

(** What a run of a tool leaves: exit code (101: panic), what is written to
    standard output apart from remarks, and the file written *)
Inductive piece := PText (s : string) | PBytes (l : list N) | PHex (l : list N).
Record ran := Ran { r_exit : N; r_out : list piece; r_file : option (string * list N) }.
Definition panicked : ran := Ran 101 [] None.

Section tools.
(** as in Httpd.v, and bp7's encoding of bundles *)
Context (parse_eid : string -> option eid) (local_eid : string -> option eid) (params : string -> gmap string string).
Context (dec_bundle : list N -> option bundle) (unhex : string -> option (option (list N))) (duration : string -> option N).
Context (parse_url : string -> option url) (is_cla : string -> bool) (parse_ip : string -> option string).
Context (enc_bundle : bundle -> list N).
Notation srv := (serve parse_eid local_eid params dec_bundle unhex duration parse_url is_cla parse_ip).

(** dtnrecv.rs:80, dtnsend.rs:48, dtntrigger.rs:82 *)
Definition localhost (ipv6 : bool) : ipaddr := if ipv6 then V6 1 else V4 2130706433.
(** the bytes of an answer; the other bodies are not answers to these requests *)
Definition body_bytes (x : body) : list N :=
  match x with
  | BText s => map Ascii.N_of_ascii (list_ascii_of_string s)
  | BBundle b => enc_bundle b
  | _ => []
  end.

(** ** dtnrecv.rs *)
Inductive recv_cmd := RFetch (e : string) | RDelete (id : string) | RRegister (e : string) | RUnregister (e : string) | RDownload (id : string).
Inductive form := FHex | FRaw | FPayload.
(** dtnrecv.rs:8-55 *)
Record recv_args := RecvArgs { ra_cmd : recv_cmd; ra_form : form; ra_outfile : option string; ra_verbose : bool; ra_ipv6 : bool }.
(** dtnrecv.rs:81-112 *)
Definition recv_request (a : recv_args) : request :=
  let (path, q) := match ra_cmd a with
                   | RFetch e => ("/endpoint", e)
                   | RDelete id => ("/delete", id)
                   | RRegister e => ("/register", e)
                   | RUnregister e => ("/unregister", e)
                   | RDownload id => ("/download", id)
                   end in
  Request GET path (Some q) [] (localhost (ra_ipv6 a)) false.
(** dtnrecv.rs:57-71 *)
Definition write_bytes (data : list N) (outfile : option string) : ran :=
  match outfile with
  | Some f => Ran 0 [] (Some (f, data))
  | None => Ran 0 [PBytes data] None
  end.
(** dtnrecv.rs:132-156: what is made of the bytes received *)
Definition recv_bytes (a : recv_args) (buf : list N) : ran :=
  if 50 <? N.of_nat (length buf) then
    match ra_form a with
    | FHex => Ran 0 [PHex buf] None
    | FRaw => write_bytes buf (ra_outfile a)
    | FPayload =>
        match dec_bundle buf with
        | None => panicked
        | Some b => match payload_of b with Some data => write_bytes data (ra_outfile a) | None => panicked end
        end
    end
  else Ran (if ra_verbose a then 23 else 0) [] None.
(** dtnrecv.rs:72-157 *)
Definition dtnrecv (cf : hconf) (ev : env) (a : recv_args) (d : daemon) : ran * daemon :=
  let (x, d') := srv cf ev (recv_request a) d in
  (match x with
   | Resp 200 body =>
       match ra_cmd a with
       | RDelete id => Ran 0 [PText ("Deleted bundle " +:+ id)] None
       | RRegister e => Ran 0 [PText ("Registered endpoint " +:+ e)] None
       | RUnregister e => Ran 0 [PText ("Unregistered endpoint " +:+ e)] None
       | _ => recv_bytes a (body_bytes body)
       end
   | Resp _ _ | NoRoute => Ran 23 [] None
   | Crash => panicked
   end, d').

(** ** dtnsend.rs *)
(** dtnsend.rs:9-44, 73-84; [sa_data]: the file or standard input; lifetime in seconds *)
Record send_args := SendArgs { sa_sender : option string; sa_receiver : string; sa_data : list N; sa_life : N; sa_dryrun : bool; sa_ipv6 : bool }.
(** dtn7_plus client local_node_id: GET /status/nodeid, read as an endpoint id *)
Definition node_id (cf : hconf) (ev : env) (a : send_args) (d : daemon) : option eid :=
  match fst (srv cf ev (Request GET "/status/nodeid" None [] (localhost (sa_ipv6 a)) false) d) with
  | Resp 200 (BText t) => parse_eid t
  | _ => None
  end.
(** dtnsend.rs:58-67 *)
Definition sender_of (cf : hconf) (ev : env) (a : send_args) (d : daemon) : option eid :=
  match sa_sender a with
  | Some s => parse_eid s
  | None => match node_id cf ev a d with Some e => parse_eid (eid_string e) | None => None end
  end.
(** dtnsend.rs:90-95 with bp7's new_std_payload_bundle: payload and hop count
    block.  The creation timestamp is the daemon's (GET /cts, dtn7_plus client
    creation_timestamp), [ev_time], [ev_seq].  The lifetime is a number of
    milliseconds of 64 bits.  The flag against fragmentation is not part of the
    model of bundles. *)
Definition send_bundle (ev : env) (src dst : eid) (life : N) (data : list N) : bundle :=
  Bundle (BFlags false false false false true false false) dst src src (ev_time ev) (ev_seq ev) (life * 1000 mod 2^64) 0 0
    [Block PAYLOAD_BLOCK 1 (KFlags false false false false) (CData data);
     Block HOP_COUNT_BLOCK 2 (KFlags false false false false) (CHop 32 0)].
(** the text of an answer; those not modelled are empty *)
Definition body_text (x : response) : string := match x with Resp _ (BText t) => t | _ => "" end.
(** dtnsend.rs:46-116 *)
Definition dtnsend (cf : hconf) (ev : env) (a : send_args) (d : daemon) : ran * daemon :=
  match sender_of cf ev a d, parse_eid (sa_receiver a) with
  | Some src, Some dst =>
      let b := send_bundle ev src dst (sa_life a) (sa_data a) in
      if sa_dryrun a then (Ran 0 [PText ("Bundle-Id: " +:+ bid b); PHex (enc_bundle b)] None, d)
      else
        let (x, d') := srv cf ev (Request POST "/insert" None (enc_bundle b) (localhost (sa_ipv6 a)) false) d in
        (match x with
         | Crash => Ran 101 [PText ("Bundle-Id: " +:+ bid b)] None
         | _ => Ran 0 [PText ("Bundle-Id: " +:+ bid b); PText ("Result: " +:+ body_text x)] None
         end, d')
  | _, _ => (panicked, d)
  end.

(** ** dtnquery.rs *)
(** 19-42 *)
Inductive query_cmd := QEids | QPeers | QBundles (verbose digest : bool) (addr : option string) | QStore | QInfo | QNodeid.
(** 54-103 *)
Definition query_url (c : query_cmd) : string * option string :=
  match c with
  | QEids => ("/status/eids", None)
  | QPeers => ("/status/peers", None)
  | QBundles verbose digest addr =>
      if verbose then ("/status/bundles/verbose", None)
      else match addr with
           | Some a => (if digest then "/status/bundles/filtered/digest" else "/status/bundles/filtered", Some ("addr=" +:+ a))
           | None => (if digest then "/status/bundles/digest" else "/status/bundles", None)
           end
  | QStore => ("/status/store", None)
  | QInfo => ("/status/info", None)
  | QNodeid => ("/status/nodeid", None)
  end.
(** 44-110: exit code, what is printed after the heading (whatever the status of
    the answer) *)
Definition dtnquery (cf : hconf) (ev : env) (ipv6 : bool) (c : query_cmd) (d : daemon) : N * option body * daemon :=
  let (x, d') := srv cf ev (Request GET (fst (query_url c)) (snd (query_url c)) [] (localhost ipv6) false) d in
  match x with
  | Resp _ b => (0, Some b, d')
  | NoRoute => (0, Some BPage, d')
  | Crash => (101, None, d')
  end.
End tools.

(** ** dtntrigger.rs *)
(** str::starts_with *)
Definition starts (p s : string) : bool := match strip_prefix p s with Some _ => true | None => false end.
(** dtntrigger.rs:108-153: the commands run for the messages that came, each with
    the source and the content of the payload file.  The command can be started. *)
Fixpoint trigger_loop (verbose : bool) (l : list wsout) : list (string * list N) :=
  match l with
  | [] => []
  | OText _ :: _ => []
  | OData _ _ :: _ => []
  | OPing :: l => trigger_loop verbose l
  | OBundle b :: l =>
      if bf_admin (b_flags b) then trigger_loop verbose l
      else
        match payload_of b with
        | Some data => (eid_string (b_src b), data) :: trigger_loop verbose l
        | None => if verbose then [] else trigger_loop verbose l
        end
  end.
(** dtntrigger.rs:92-106: the two requests sent and the answers to them *)
Definition trigger_says (arg : string) : list wsmsg := [MText "/bundle"; MText ("/subscribe " +:+ arg)].
(** read_text of the client crate, which is not in /repo: the next text; heartbeats
    before it are passed over, anything else is an error. *)
Fixpoint read_text (l : list wsout) : option (string * list wsout) :=
  match l with
  | OPing :: l => read_text l
  | OText m :: l => Some (m, l)
  | _ => None
  end.
Definition trigger (verbose : bool) (l : list wsout) : list (string * list N) :=
  match read_text l with
  | Some (m1, l) =>
      match read_text l with
      | Some (m2, l) => if starts "200 tx mode: bundle" m1 && starts "200 subscribed" m2 then trigger_loop verbose l else []
      | None => []
      end
  | None => []
  end.
