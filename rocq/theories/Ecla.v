(** External convergence layers: cla/ecla/processing.rs, cla/ecla/ws.rs,
    cla/ecla/tcp.rs, cla/external.rs and lib.rs:45-92. *)
From stdpp Require Import prelude strings pretty gmap.
From Coq Require Import NArith Lia.
From Verif Require Import Bytes Cbor Core Peers Routing Beacon.
Open Scope N_scope.

(** The two connectors, ws.rs:103-118 and tcp.rs:75-108 *)
Inductive kind := WS | TCP.
Global Instance kind_eq_dec : EqDecision kind.
Proof. solve_decision. Defined.
Global Instance kind_countable : Countable kind.
Proof. refine (inj_countable' (fun k => match k with WS => true | TCP => false end) (fun b : bool => if b then WS else TCP) _). by intros []. Defined.
(** ecla/mod.rs:50-116; packets are data here, their JSON form is not modelled *)
Inductive packet :=
| PRegister (name : string) (beacon : bool) (port : option N)
| PBeacon (e : eid) (addr : string) (block : list N)
| PForward (src dst id : string) (data : list N)
| PRegistered (e : eid) (nodeid : string)
| PError (reason : string).
(** processing.rs:35-53; enable_beacon is always true.  A module that waits
    for its registration has the name "". *)
Record module := Module { md_active : bool; md_name : string; md_kind : kind }.
(** A convergence layer (lib.rs:40): name, port, and whether it is external *)
Record layer := Layer { ly_name : string; ly_port : N; ly_ext : bool }.
(** ecla/mod.rs:121-127, an entry of PEER_MAP: whether the close channel is
    still there, and what waits in the channel (of size 100) *)
Record conn := Conn { cn_close : bool; cn_queue : list packet }.
(** The std::sync mutexes; a panic while one is held poisons it *)
Inductive lock := LModules | LConnectors | LPeers (k : kind).
Global Instance lock_eq_dec : EqDecision lock.
Proof. solve_decision. Defined.

(** One task per connection, ws.rs:27-95 and tcp.rs:27-73: entered in PEER_MAP,
    up, select! over, layer removed, module removed, over, panicked *)
Inductive phase := Fresh | Up | Left1 | Left2 | Left3 | Finished | Crashed.
Global Instance phase_eq_dec : EqDecision phase.
Proof. solve_decision. Defined.
(** [t_gone]: the connection itself is no longer there (for the client) *)
Record task := Task { t_kind : kind; t_addr : string; t_phase : phase; t_gone : bool }.

(** What can be seen from outside: registrations accepted, bundles and peers
    taken in (connection number), reports of transfers (layer, destination,
    data, success; None: the transfer panicked and is not answered), packets put
    into the channel of a connection or dropped because there is no room *)
Inductive obs :=
| OAccepted (i : nat) (name : string)
| OBundle (i : nat) (b : bundle)
| OPeer (i : nat) (p : peer)
| OReport (name dest : string) (ready : list N) (r : option bool)
| OQueued (k : kind) (a : string) (p : packet)
| ODropped (k : kind) (a : string) (p : packet).
Record ecla := Ecla {
  e_modules : gmap string module;                 (* MODULE_MAP *)
  e_conns : gmap (kind * string) conn;            (* the two PEER_MAPs *)
  e_layers : list layer;                          (* CLAS *)
  e_peers : peers;                                (* PEERS *)
  e_bad : list lock;                              (* poisoned *)
  e_tasks : list task;
  e_announcer : bool;                             (* the announcer task runs *)
  e_ids : N;                                      (* ID_COUNTER *)
  e_log : list obs
}.
Definition set_modules m s := Ecla m (e_conns s) (e_layers s) (e_peers s) (e_bad s) (e_tasks s) (e_announcer s) (e_ids s) (e_log s).
Definition set_conns c s := Ecla (e_modules s) c (e_layers s) (e_peers s) (e_bad s) (e_tasks s) (e_announcer s) (e_ids s) (e_log s).
Definition set_layers l s := Ecla (e_modules s) (e_conns s) l (e_peers s) (e_bad s) (e_tasks s) (e_announcer s) (e_ids s) (e_log s).
Definition set_peers p s := Ecla (e_modules s) (e_conns s) (e_layers s) p (e_bad s) (e_tasks s) (e_announcer s) (e_ids s) (e_log s).
Definition poison l s := Ecla (e_modules s) (e_conns s) (e_layers s) (e_peers s) (l ++ e_bad s) (e_tasks s) (e_announcer s) (e_ids s) (e_log s).
Definition set_tasks t s := Ecla (e_modules s) (e_conns s) (e_layers s) (e_peers s) (e_bad s) t (e_announcer s) (e_ids s) (e_log s).
Definition set_announcer a s := Ecla (e_modules s) (e_conns s) (e_layers s) (e_peers s) (e_bad s) (e_tasks s) a (e_ids s) (e_log s).
Definition set_ids n s := Ecla (e_modules s) (e_conns s) (e_layers s) (e_peers s) (e_bad s) (e_tasks s) (e_announcer s) n (e_log s).
Definition note o s := Ecla (e_modules s) (e_conns s) (e_layers s) (e_peers s) (e_bad s) (e_tasks s) (e_announcer s) (e_ids s) (e_log s ++ [o]).

(** A function that may panic, and the state it leaves *)
Inductive res := Fine (s : ecla) | Boom (s : ecla).
(** A panic while [held] *)
Definition boom (held : list lock) (s : ecla) : res := Boom (poison held s).
(** lock().unwrap() *)
Definition locked (l : lock) (held : list lock) (s : ecla) (k : ecla -> res) : res :=
  if bool_decide (l ∈ e_bad s) then boom held s else k s.

Section ecla.
(** Bundle::try_from; the service block of a beacon: reading (None: the unwrap
    panics, or convert_services does) and writing this node's own (None: the
    expect in generate_beacon panics); EndpointID and nodeid of this node; the
    connectors started (processing.rs:301-315) *)
Context (dec_bundle : list N -> option bundle)
  (read_block : list N -> option (list (string * option N) * list (N * string)))
  (own_block : list layer -> option (list N))
  (self : eid) (nodeid : string) (connectors : list kind).

(** ws.rs:119-129 and tcp.rs:110-128 *)
Definition send_packet (k : kind) (a : string) (p : packet) (held : list lock) (s : ecla) (next : ecla -> res) : res :=
  locked (LPeers k) held s (fun s =>
    match e_conns s !! (k, a) with
    | Some c =>
        if (length (cn_queue c) <? 100)%nat
        then next (note (OQueued k a p) (set_conns (<[(k, a) := Conn (cn_close c) (cn_queue c ++ [p])]> (e_conns s)) s))
        else next (note (ODropped k a p) s)
    | None => next (note (ODropped k a p) s)
    end).
(** ws.rs:131-139 and tcp.rs:130-137: the second close of a connection panics *)
Definition close (k : kind) (a : string) (held : list lock) (s : ecla) (next : ecla -> res) : res :=
  locked (LPeers k) held s (fun s =>
    match e_conns s !! (k, a) with
    | Some c =>
        if cn_close c then next (set_conns (<[(k, a) := Conn false (cn_queue c)]> (e_conns s)) s)
        else boom (LPeers k :: held) s
    | None => next s
    end).
(** processing.rs:55-82 *)
Definition send_beacon (k : kind) (a : string) (held : list lock) (s : ecla) (next : ecla -> res) : res :=
  match own_block (e_layers s) with
  | Some blk => send_packet k a (PBeacon self "" blk) held s next
  | None => boom held s
  end.
(** lib.rs:83-92 *)
Definition cla_names (s : ecla) : list string := map ly_name (e_layers s).
(** processing.rs:108-231.  [i]: the task that calls it; [now]: the time.  The
    notification of the routing agent is left out.  The whole function holds
    MODULE_MAP. *)
Definition handle_packet (i : nat) (now : N) (k : kind) (a : string) (p : packet) (s : ecla) : res :=
  locked LModules [] s (fun s =>
  match e_modules s !! a with
  | None => Fine s
  | Some me =>
      locked LConnectors [LModules] s (fun s =>
      if negb (bool_decide (k ∈ connectors)) then Fine s
      else if negb (md_active me) then
        match p with
        | PRegister name _ port =>
            let held := [LConnectors; LModules] in
            if bool_decide (name = "") || (64 <? String.length name)%nat then
              send_packet k a (PError "invalid name") held s (fun s => close k a held s Fine)
            else if negb (bool_decide (name ∈ cla_names s)) then
              let s := set_modules (<[a := Module true name (md_kind me)]> (e_modules s)) s in
              let s := set_layers (e_layers s ++ [Layer name (default 0 port) true]) s in
              send_packet k a (PRegistered self nodeid) held (note (OAccepted i name) s) (fun s => send_beacon k a held s Fine)
            else
              send_packet k a (PError "already registered") held s (fun s => close k a held s Fine)
        | _ => Fine s
        end
      else
        match p with
        | PForward _ _ _ data =>
            match dec_bundle data with Some b => Fine (note (OBundle i b) s) | None => Fine s end
        | PBeacon e addr blk =>
            match read_block blk with
            | None => boom [LModules] s
            | Some (clas, services) =>
                let q := peer_new now e (AGeneric addr) false None clas services in
                match peers_add q (e_peers s) with
                | None => boom [LModules] s
                | Some (m, _) => Fine (note (OPeer i q) (set_peers m s))
                end
            end
        | _ => Fine s
        end)
  end).
(** processing.rs:235-245 *)
Definition handle_connect (k : kind) (a : string) (s : ecla) : res :=
  locked LModules [] s (fun s => Fine (set_modules (<[a := Module false "" k]> (e_modules s)) s)).
(** processing.rs:252-256: the guard lives until the end of the if let; lib.rs:48-52 *)
Definition cla_remove (name : string) (s : ecla) : ecla := set_layers (filter (fun l => ly_name l <> name) (e_layers s)) s.
Definition disconnect1 (a : string) (s : ecla) : res :=
  locked LModules [] s (fun s =>
  match e_modules s !! a with
  | Some me => if md_active me then Fine (cla_remove (md_name me) s) else Fine s
  | None => Fine s
  end).
(** processing.rs:258 *)
Definition disconnect2 (a : string) (s : ecla) : res :=
  locked LModules [] s (fun s => Fine (set_modules (delete a (e_modules s)) s)).
(** processing.rs:84-106: one round of the announcer over the modules.  The
    order of the HashMap is that of [map_to_list]; no theorem depends on it. *)
Fixpoint announce_all (l : list (string * module)) (s : ecla) : res :=
  match l with
  | [] => Fine s
  | (a, me) :: l =>
      locked LConnectors [LModules] s (fun s =>
      if bool_decide (md_kind me ∈ connectors)
      then send_beacon (md_kind me) a [LConnectors; LModules] s (announce_all l)
      else announce_all l s)
  end.
Definition tick (s : ecla) : res := locked LModules [] s (fun s => announce_all (map_to_list (e_modules s)) s).
(** processing.rs:262-292; [was]: was_sent so far *)
Fixpoint submit_all (name dest : string) (ready : list N) (l : list (string * module)) (was : bool) (s : ecla) : res :=
  match l with
  | [] => Fine (note (OReport name dest ready (Some was)) s)
  | (a, me) :: l =>
      match dec_bundle ready with
      | Some b =>
          if bool_decide (md_name me = name) && bool_decide (md_kind me ∈ connectors)
          then send_packet (md_kind me) a (PForward "" dest (bid b) ready) [LModules; LConnectors] s (submit_all name dest ready l true)
          else submit_all name dest ready l was s
      | None => submit_all name dest ready l was s
      end
  end.
Definition scheduled_submission (name dest : string) (ready : list N) (s : ecla) : res :=
  locked LConnectors [] s (fun s => locked LModules [LConnectors] s (fun s =>
    submit_all name dest ready (map_to_list (e_modules s)) false s)).

(** ** All tasks *)
Definition set_phase (ph : phase) (t : task) : task := Task (t_kind t) (t_addr t) ph (t_gone t).
Definition set_gone (t : task) : task := Task (t_kind t) (t_addr t) (t_phase t) true.
Definition upd (i : nat) (f : task -> task) (s : ecla) : ecla := set_tasks (alter f i (e_tasks s)) s.
(** A task that panics is gone, and its connection with it *)
Definition after (i : nat) (f : task -> task) (r : res) : ecla :=
  match r with Fine s => upd i f s | Boom s => upd i (fun t => set_gone (set_phase Crashed t)) s end.
Definition ws_addr (n : N) : string := pretty n.
Definition tcp_addr (ip : string) (port : N) : string := ip +:+ ":" +:+ pretty port.

Inductive event :=
| EOpen (k : kind) (ip : string) (port : N)  (* a connection is accepted and entered *)
| EInit (i : nat)                            (* its task calls handle_connect *)
| EPacket (i : nat) (now : N) (p : packet)   (* a packet arrives *)
| EJunk (i : nat)                            (* a websocket message that is not UTF-8 text arrives *)
| EGone (i : nat)                            (* the client goes away *)
| EEnd (i : nat)                             (* the select of the task ends *)
| EDisc1 (i : nat) | EDisc2 (i : nat) | EDisc3 (i : nat)
| EDrain (k : kind) (a : string) (n : nat)   (* packets leave the channel of a connection *)
| ETick
| ESubmit (name dest : string) (ready : list N).
Definition address (k : kind) (ip : string) (port : N) (s : ecla) : string :=
  match k with WS => ws_addr (e_ids s) | TCP => tcp_addr ip port end.
(** One critical section of MODULE_MAP or one access to PEER_MAP; [None]: cannot
    happen in this state. *)
Definition step (e : event) (s : ecla) : option ecla :=
  match e with
  | EOpen k ip port =>
      let a := address k ip port s in
      (* the address of a connection that still exists is not given twice *)
      if decide (k = TCP /\ Exists (fun t => t_kind t = TCP /\ t_addr t = a /\ t_gone t = false) (e_tasks s)) then None
      else
        let s := set_tasks (e_tasks s ++ [Task k a Fresh false]) s in
        let s := match k with WS => set_ids (e_ids s + 1) s | TCP => s end in
        let i := (length (e_tasks s) - 1)%nat in
        (* ws.rs:28-41, tcp.rs:28-42 *)
        Some (after i id (locked (LPeers k) [] s (fun s => Fine (set_conns (<[(k, a) := Conn true []]> (e_conns s)) s))))
  | EInit i =>
      match e_tasks s !! i with
      | Some (Task k a Fresh _) => Some (after i (set_phase Up) (handle_connect k a s))
      | _ => None
      end
  | EPacket i now p =>
      match e_tasks s !! i with
      | Some (Task TCP a Up _) => Some (after i id (handle_packet i now TCP a p s))       (* tcp.rs:55-58 *)
      | Some (Task WS a Up _) =>                                                          (* ws.rs:45-74 *)
          Some (after i id (locked (LPeers WS) [] s (fun s =>
            match e_conns s !! (WS, a) with Some _ => handle_packet i now WS a p s | None => Fine s end)))
      | _ => None
      end
  | EJunk i =>
      match e_tasks s !! i with
      | Some (Task WS a Up _) =>                                                          (* ws.rs:56-69 *)
          Some (after i id (locked (LPeers WS) [] s (fun s =>
            match e_conns s !! (WS, a) with Some _ => boom [LPeers WS] s | None => Fine s end)))
      | _ => None
      end
  | EGone i => match e_tasks s !! i with Some t => Some (upd i set_gone s) | None => None end
  | EEnd i =>
      match e_tasks s !! i with
      | Some (Task WS a Up _) => Some (upd i (fun t => set_gone (set_phase Left1 t)) s)
      | Some (Task TCP a Up _) =>                                                         (* tcp.rs:69 *)
          let found := bool_decide (is_Some (e_conns s !! (TCP, a))) in
          Some (after i (fun t => set_gone (set_phase (if found then Left1 else Finished) t))
            (locked (LPeers TCP) [] s (fun s => Fine (set_conns (delete (TCP, a) (e_conns s)) s))))
      | _ => None
      end
  | EDisc1 i =>
      match e_tasks s !! i with
      | Some (Task _ a Left1 _) => Some (after i (set_phase Left2) (disconnect1 a s))
      | _ => None
      end
  | EDisc2 i =>
      match e_tasks s !! i with
      | Some (Task k a Left2 _) => Some (after i (set_phase (match k with WS => Left3 | TCP => Finished end)) (disconnect2 a s))
      | _ => None
      end
  | EDisc3 i =>
      match e_tasks s !! i with
      | Some (Task WS a Left3 _) =>                                                       (* ws.rs:94 *)
          Some (after i (set_phase Finished) (locked (LPeers WS) [] s (fun s => Fine (set_conns (delete (WS, a) (e_conns s)) s))))
      | _ => None
      end
  | EDrain k a n =>
      match e_conns s !! (k, a) with
      | Some c => Some (set_conns (<[(k, a) := Conn (cn_close c) (drop n (cn_queue c))]> (e_conns s)) s)
      | None => None
      end
  | ETick =>
      if e_announcer s then Some (match tick s with Fine s => s | Boom s => set_announcer false s end) else None
  | ESubmit name dest ready =>                                                            (* external.rs:42-56 *)
      Some (match scheduled_submission name dest ready s with Fine s => s | Boom s => note (OReport name dest ready None) s end)
  end.
(** daemon.rs:112-115, 158-161: the configured layers are there before *)
Definition start (builtin : list layer) (ps : peers) : ecla := Ecla ∅ ∅ builtin ps [] [] true 0 [].
Inductive runs (s0 : ecla) : list event -> ecla -> Prop :=
| runs_nil : runs s0 [] s0
| runs_snoc evs e s s' : runs s0 evs s -> step e s = Some s' -> runs s0 (evs ++ [e]) s'.
End ecla.

(** The two functions on service blocks, for a beacon of this software:
    processing.rs:203-212 with ipnd/services.rs, and processing.rs:55-82 ([ord]:
    the order in which the HashMap of services is written) *)
Definition read_services (show_f32 : N -> string) (blk : list N) : option (list (string * option N) * list (N * string)) :=
  match from_slice de_block blk with
  | Good sb => match convert_services show_f32 sb with Good sv => Some (sb_clas sb, sv) | _ => None end
  | _ => None
  end.
Fixpoint block_services (parse_f32 : string -> option N) (l : list (N * string)) (sb : sblock) : option sblock :=
  match l with
  | [] => Some sb
  | (t, x) :: l => match build_service parse_f32 t x with Good p => block_services parse_f32 l (sb_add_service t p sb) | _ => None end
  end.
Definition own_services (parse_f32 : string -> option N) (services : list (N * string)) (ord : sblock -> list (N * bytes)) (ls : list layer) : option (list N) :=
  match block_services parse_f32 services (foldl (fun sb l => sb_add_cla (ly_name l) (Some (ly_port l)) sb) sb_new ls) with
  | Some sb => Some (enc_block (ord sb) sb)
  | None => None
  end.
