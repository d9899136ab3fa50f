(** Routing agents: routing/epidemic.rs, flooding.rs, sink.rs, sprayandwait.rs,
    static_routing.rs and their interface routing/mod.rs. *)
From Verif Require Import Core Peers.
From stdpp Require Import prelude strings pretty gmap.
From Coq Require Import NArith Lia.
Open Scope N_scope.

(** ** Interface *)
(** routing/mod.rs:25-33 RoutingNotifcation *)
Inductive notif :=
| SendingFailed (id node : string) | SendingSucceeded (id node : string)
| IncomingBundle (b : bundle) | IncomingNoPrev (id node : string)
| Encountered (e : eid) | Dropped (e : eid).
(** routing/mod.rs:54-60 RoutingCmd.  A query carries what the agent reads
    while it answers: the entries of the peer table in iteration order (the
    lock is held for the whole iteration) and the running convergence layers.
    GetData and Shutdown do not touch the state that matters here and are
    left out. *)
Inductive rcmd :=
| RSender (p : pack) (ps : list peer) (clas : list cla)
| RNotify (n : notif)
| RCommand (cmd : string) (file : option string).   (* file: what a reload reads *)
Notation answer := (list sender * bool)%type.

(** An agent is a task that owns its state and handles one command after the
    other (channel receive loop, e.g. epidemic.rs:78-128).  [None]: the task
    panics; later queries get no answer (routing_sender_for_bundle fails,
    lib.rs:263-279). *)
Section agent.
Context {S : Type} (step : S -> rcmd -> option (S * option answer)).
Fixpoint arun (s : option S) (cs : list rcmd) : list (rcmd * option answer) :=
  match cs with
  | [] => []
  | c :: cs =>
      match s ≫= (fun s => step s c) with
      | None => (c, None) :: arun None cs
      | Some (s', a) => (c, a) :: arun (Some s') cs
      end
  end.
Fixpoint astate (s : option S) (cs : list rcmd) : option S :=
  match cs with
  | [] => s
  | c :: cs => astate (fst <$> (s ≫= (fun s => step s c))) cs
  end.
End agent.

(** bp7 Bundle::previous_node: the first block of type 6, if it holds an
    endpoint id *)
Definition previous_node (b : bundle) : option eid :=
  match filter (fun k => k_type k = PREVIOUS_NODE_BLOCK) (b_blocks b) with
  | k :: _ => match k_data k with CPrev e => Some e | _ => None end
  | [] => None
  end.

(** ** Epidemic (epidemic.rs) *)
(** 25-27 *)
Notation hist := (gmap string (gset string)).
(** 36-39 *)
Definition e_add (h : hist) (id n : string) : hist := <[id := {[n]} ∪ default ∅ (h !! id)]> h.
(** 53-59 *)
Definition e_contains (h : hist) (id n : string) : bool :=
  match h !! id with Some s => bool_decide (n ∈ s) | None => false end.
(** 60-68 *)
Definition e_failed (h : hist) (id n : string) : hist :=
  match h !! id with Some s => <[id := s ∖ {[n]}]> h | None => h end.
(** 70-74 *)
Definition e_incoming (h : hist) (id n : string) : hist :=
  if negb (bool_decide (n = "")) && negb (e_contains h id n) then e_add h id n else h.
(** 83-106: the loop over the peers; [acc] is the vector [clas] *)
Fixpoint e_query (clas : list cla) (p : pack) (h : hist) (ps : list peer) (acc : list sender)
  : option (hist * answer) :=
  match ps with
  | [] => Some (h, (acc, false))
  | q :: ps =>
      if e_contains h (p_id p) (node_name q) then e_query clas p h ps acc
      else
        match first_cla clas q with
        | None => e_query clas p h ps acc
        | Some s =>
            let h' := e_add h (p_id p) (node_name q) in
            match eid_node (p_dst p) with
            | None => None                                    (* unwrap *)
            | Some d =>
                if bool_decide (d = node_name q) then Some (h', ([s], true))
                else e_query clas p h' ps (acc ++ [s])
            end
        end
  end.
(** 78-137 *)
Definition e_step (h : hist) (c : rcmd) : option (hist * option answer) :=
  match c with
  | RSender p ps clas =>
      match e_query clas p h ps [] with Some (h', a) => Some (h', Some a) | None => None end
  | RNotify (SendingFailed id n) => Some (e_failed h id n, None)
  | RNotify (IncomingBundle b) =>
      Some (match previous_node b with
            | Some e => match eid_node e with Some n => e_incoming h (bid b) n | None => h end
            | None => h
            end, None)
  | RNotify (IncomingNoPrev id n) => Some (e_incoming h id n, None)
  | RNotify _ | RCommand _ _ => Some (h, None)
  end.

(** ** Flooding (flooding.rs:24-50) and sink (sink.rs:17-38) *)
Definition f_step (u : unit) (c : rcmd) : option (unit * option answer) :=
  match c with
  | RSender p ps clas => Some (u, Some (omap (first_cla clas) ps, false))
  | _ => Some (u, None)
  end.
Definition sink_step (u : unit) (c : rcmd) : option (unit * option answer) :=
  match c with RSender _ _ _ => Some (u, Some ([], false)) | _ => Some (u, None) end.

(** ** Spray and wait (sprayandwait.rs) *)
(** 20-26 *)
Record saw_data := SawData { sw_left : N; sw_nodes : list string }.
(** 31-38, except for the map itself: [sc_l] is the number of initial copies,
    [sc_local] the id of this node ("dtn://node/") *)
Record saw_conf := SawConf { sc_l : N; sc_local : string }.
Notation saw_hist := (gmap string saw_data).
(** String::starts_with and String::contains *)
Fixpoint sub_of (sub s : string) : bool :=
  String.prefix sub s || match s with "" => false | String _ s => sub_of sub s end.
(** 49-67 handle_new_bundle *)
Definition saw_new (cf : saw_conf) (h : saw_hist) (id : string) : saw_hist :=
  <[id := SawData (if String.prefix (sc_local cf) id then sc_l cf else 1) []]> h.
(** 97-121 handle_notification *)
Definition saw_notify (cf : saw_conf) (h : saw_hist) (n : notif) : saw_hist :=
  match n with
  | SendingFailed id node =>
      match h !! id with
      | Some d => <[id := SawData (sw_left d + 1) (filter (fun x => sub_of node x = true) (sw_nodes d))]> h
      | None => h
      end
  | IncomingBundle b => saw_new cf h (bid b)
  | IncomingNoPrev id _ => saw_new cf h id
  | _ => h
  end.
(** 130-171: the loop over the peers *)
Fixpoint saw_query (cf : saw_conf) (clas : list cla) (p : pack) (d : saw_data) (ps : list peer) (acc : list sender) (del : bool)
  : option (saw_data * answer) :=
  match ps with
  | [] => Some (d, (acc, del))
  | q :: ps =>
      match eid_node_id (pe_eid q) with
      | None => None                                          (* unwrap, 132 *)
      | Some nid =>
          if bool_decide (nid = sc_local cf) || bool_decide (nid ∈ sw_nodes d)
          then saw_query cf clas p d ps acc del
          else if sw_left d <? 2 then
            match eid_node (p_dst p) with
            | None => None                                    (* unwrap, 139 *)
            | Some n =>
                if bool_decide (n = node_name q) then
                  match first_cla clas q with
                  | Some s => saw_query cf clas p d ps [s] true
                  | None => saw_query cf clas p d ps acc del
                  end
                else saw_query cf clas p d ps acc del
            end
          else
            match first_cla clas q with
            | Some s => saw_query cf clas p (SawData (sw_left d - 1) (sw_nodes d ++ [nid])) ps (acc ++ [s]) del
            | None => saw_query cf clas p d ps acc del
            end
      end
  end.
(** 122-178 handle_sender_for_bundle and 191-210 *)
Definition saw_step (cf : saw_conf) (h : saw_hist) (c : rcmd) : option (saw_hist * option answer) :=
  match c with
  | RSender p ps clas =>
      match h !! p_id p with
      | None => Some (h, Some ([], false))
      | Some d =>
          match saw_query cf clas p d ps [] false with
          | Some (d', a) => Some (<[p_id p := d']> h, Some a)
          | None => None
          end
      end
  | RNotify n => Some (saw_notify cf h n, None)
  | RCommand _ _ => Some (h, None)
  end.

(** ** Static routing (static_routing.rs) *)
(** 12-21 *)
Record route := Route { rt_idx : N; rt_src : string; rt_dst : string; rt_via : string }.
(** char::is_whitespace restricted to ASCII (9-13 and 32); routing tables with
    other Unicode white space are not modelled *)
Definition is_blank (c : Ascii.ascii) : bool :=
  let n := Ascii.N_of_ascii c in (n =? 32) || ((9 <=? n) && (n <=? 13)).
(** str::split_whitespace: the maximal non-blank pieces; [cur] is the piece
    being read *)
Fixpoint split_aux (s : string) (cur : string) : list string :=
  match s with
  | "" => if bool_decide (cur = "") then [] else [cur]
  | String c s =>
      if is_blank c then (if bool_decide (cur = "") then split_aux s "" else cur :: split_aux s "")
      else split_aux s (cur +:+ String c "")
  end.
Definition split_blank (s : string) : list string := split_aux s "".
(** the first non-blank character decides [trim().starts_with('#')] and
    [trim().is_empty()] *)
Fixpoint trim_start (s : string) : string :=
  match s with String c s' => if is_blank c then trim_start s' else s | "" => "" end.
Definition hash : Ascii.ascii := Ascii.ascii_of_N 35.
Definition skip_line (s : string) : bool :=
  match trim_start s with "" => true | String c _ => bool_decide (c = hash) end.
(** str::parse::<u16>: an optional '+', at least one digit, value below 2^16 *)
Fixpoint digits_val (s : string) (acc : N) : option N :=
  match s with
  | "" => Some acc
  | String c s =>
      let n := Ascii.N_of_ascii c in
      if (48 <=? n) && (n <=? 57) then
        let acc' := 10 * acc + (n - 48) in
        if acc' <? 2^16 then digits_val s acc' else None
      else None
  end.
Definition parse_u16 (s : string) : option N :=
  match s with
  | "" => None
  | String c s' =>
      if Ascii.N_of_ascii c =? 43 then (if bool_decide (s' = "") then None else digits_val s' 0)
      else digits_val s 0
  end.
(** 73-91 parse_route_from_str; outer [None]: panic *)
Definition parse_route (s : string) : option (option route) :=
  if skip_line s then Some None
  else
    match split_blank s with
    | idx :: src :: dst :: via :: _ =>
        match parse_u16 idx with
        | Some i => Some (Some (Route i src dst via))
        | None => None
        end
    | _ => None
    end.
(** str::lines: split at '\n'; a '\r' before it is removed; no empty line
    after a final '\n' *)
Fixpoint strip_cr (s : string) : string :=
  match s with
  | "" => ""
  | String c s' => if (Ascii.N_of_ascii c =? 13) && bool_decide (s' = "") then "" else String c (strip_cr s')
  end.
Fixpoint lines_aux (s : string) (cur : string) : list string :=
  match s with
  | "" => if bool_decide (cur = "") then [] else [cur]
  | String c s => if Ascii.N_of_ascii c =? 10 then strip_cr cur :: lines_aux s "" else lines_aux s (cur +:+ String c "")
  end.
Definition lines (s : string) : list string := lines_aux s "".
(** 110-121 and 166-175 *)
Fixpoint parse_lines (ls : list string) : option (list route) :=
  match ls with
  | [] => Some []
  | l :: ls =>
      match parse_route l with
      | None => None
      | Some r => match parse_lines ls with
                  | None => None
                  | Some rs => Some (match r with Some r => r :: rs | None => rs end)
                  end
      end
  end.
Definition load_routes (file : string) : option (list route) := parse_lines (lines file).

Section static.
(** glob_match::glob_match (external crate): pattern, text *)
Context (glob : string -> string -> bool).
Definition route_matches (p : pack) (r : route) : bool :=
  glob (rt_src r) (eid_string (p_src p)) && glob (rt_dst r) (eid_string (p_dst p)).
(** 134-157 *)
Fixpoint st_query (clas : list cla) (p : pack) (ps : list peer) (rs : list route) : answer :=
  match rs with
  | [] => ([], false)
  | r :: rs =>
      if route_matches p r then
        match first_some (fun q => if bool_decide (eid_string (pe_eid q) = rt_via r) then first_cla clas q else None) ps with
        | Some s => ([s], negb (eid_non_singleton (p_dst p)))
        | None => st_query clas p ps rs
        end
      else st_query clas p ps rs
  end.
(** 127-197.  [RCommand cmd file]: [file] is what reading the configured file
    yields ([None]: not configured).  An unreadable file panics like a
    malformed one and is not distinguished. *)
Definition st_step (rs : list route) (c : rcmd) : option (list route * option answer) :=
  match c with
  | RSender p ps clas => Some (rs, Some (st_query clas p ps rs))
  | RCommand cmd file =>
      if bool_decide (cmd = "reload") then
        match file with
        | None => Some (rs, None)
        | Some f => match load_routes f with Some rs' => Some (rs', None) | None => None end
        end
      else Some (rs, None)
  | RNotify _ => Some (rs, None)
  end.
End static.
