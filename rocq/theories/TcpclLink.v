(** A TCPCL connection from its opening to its end at the level of bytes
    (cla/tcp/mod.rs:78-594): contact headers, session parameters and the session
    of TcpclSession.v, reading from and writing to byte pipes; and two nodes
    joined by such pipes. *)
From Verif Require Import Bytes TcpclWire TcpclSession TcpclPair Core.
From stdpp Require Import prelude strings.
From Coq Require Import NArith Lia.
Open Scope N_scope.

(** Where the task of a connection is in [connect] (mod.rs:543-594): waiting for
    the contact header (550), for the session parameters (561), in the session
    with the negotiated parameters of the other side (591), or gone before there
    was a session (552, 563, 593 or a panic). *)
Inductive cphase := Hello | Offer | Live (remote : sess_init) (s : session) | Dead.
(** [c_held]: bytes the pending read has taken from the stream (see
    TcpclCancel.v).  [c_out]: bytes written that the other side has not taken
    yet.  [c_log]: what the session did.  [c_stores]: contents of the store
    consulted.  [c_new]: nodes added to the peer table. *)
Record conn := Conn { c_phase : cphase; c_held : bytes; c_out : bytes; c_log : list eff; c_stores : list (bytes -> bool); c_new : list eid }.

(** What is observed while reading: whether a node is in the peer table
    (lib.rs:130-133), whether a bundle is in the store, whether the submitter
    waits for the result. *)
Record env := Env { v_known : string -> bool; v_has : bytes -> bool; v_resp : bool }.

Section Conn.
  (** String::from_utf8_lossy; Bundle::try_from; EndpointID::try_from on the text
      of a node id *)
  Variable utf8_lossy : bytes -> bytes.
  Variable parse_id : bytes -> option bytes.
  Variable parse_node : bytes -> option eid.
  (** opened by this node; refuse-existing-bundles; this node's id *)
  Variable active refuse : bool.
  Variable own : bytes.

  (** mod.rs:549, 516-528: the contact header is written first *)
  Definition conn0 : conn := Conn Hello [] (write (PContactHeader false)) [] [] [].
  Definition dead (c : conn) : conn := Conn Dead [] (c_out c) (c_log c) (c_stores c) (c_new c).
  (** the session reacts to an event; what it has read of a message is dropped *)
  Definition react1 (c : conn) (d : sess_init) (s : session) (e : event) (snap : list (bytes -> bool)) : conn :=
    let r := step parse_id refuse (si_segment_mru d) s e in
    Conn (Live d (fst r)) [] (c_out c ++ concat (map write (msgs (snd r)))) (c_log c ++ snd r) (c_stores c ++ snap) (c_new c).
  (** mod.rs:562-576: the node id has to be an endpoint; the node behind an
      accepted connection becomes a peer unless it is one.  [None]: panic. *)
  Definition greet (v : env) (d : sess_init) : option (list eid) :=
    match parse_node (si_node_id d) with
    | None => None
    | Some e => if active then Some []
                else match eid_node e with
                     | None => None
                     | Some n => Some (if v_known v n then [] else [e])
                     end
    end.
  (** The task of the connection is polled and [s] has arrived: one message, or
      as much of one as there is, is read.  The second component is what it
      leaves unread. *)
  Definition poll (c : conn) (v : env) (s : bytes) : conn * bytes :=
    let s' := c_held c ++ s in
    match c_phase c with
    | Hello => (* mod.rs:530-540, then 501-502 *)
        match receive_contact_header s' with
        | ROk _ rest => (Conn Offer [] (c_out c ++ write (PSessInit (local_params own))) (c_log c) (c_stores c) (c_new c), rest)
        | RWait => (Conn Hello s' (c_out c) (c_log c) (c_stores c) (c_new c), [])
        | RErr => (dead c, [])
        end
    | Offer => (* mod.rs:504-513, 562-592 *)
        match read utf8_lossy s' with
        | ROk (PSessInit d) rest =>
            match greet v d with
            | Some l => (Conn (Live (snd (negotiate (local_params own) d)) session0) [] (c_out c) (c_log c) (c_stores c) (c_new c ++ l), rest)
            | None => (dead c, rest)
            end
        | ROk _ rest => (dead c, rest)
        | RWait => (Conn Offer s' (c_out c) (c_log c) (c_stores c) (c_new c), [])
        | RErr => (dead c, [])
        end
    | Live d x => (* mod.rs:133-165 *)
        if is_terminated x then (c, s)
        else match read utf8_lossy s' with
             | ROk p rest => (react1 c d x (EvPacket p (v_has v) (v_resp v)) [v_has v], rest)
             | RWait => (Conn (Live d x) s' (c_out c) (c_log c) (c_stores c) (c_new c), [])
             | RErr => (react1 c d x EvReadErr [], [])
             end
    | Dead => (c, s)
    end.
  (** The other branches of the loop (mod.rs:166-205).  Before there is a session
      nothing is taken from the queue and no timer runs; bundles are only taken
      when none is being sent. *)
  Definition other_branch (c : conn) (e : event) : conn :=
    match c_phase c with
    | Live d x =>
        if is_terminated x then c
        else match e with
             | EvSubmit _ _ _ | EvQueueClosed => match s_send x with SIdle => react1 c d x e [] | _ => c end
             | _ => react1 c d x e []
             end
    | _ => c
    end.
  (** The connection fails: the read or write under way gives an error. *)
  Definition fail (c : conn) : conn :=
    match c_phase c with
    | Live d x => if is_terminated x then c else react1 c d x EvReadErr []
    | _ => dead c
    end.

  (** One connection whose other side sends anything: bytes arrive, the task is
      polled, other branches win, the connection fails. *)
  Inductive hev := HArrive (b : bytes) | HPoll (v : env) | HOther (e : event) | HFail.
  Definition hstep (cs : conn * bytes) (e : hev) : conn * bytes :=
    match e with
    | HArrive b => (fst cs, snd cs ++ b)
    | HPoll v => poll (fst cs) v (snd cs)
    | HOther e => (match e with EvSubmit _ _ _ | EvQueueClosed | EvTimeout => other_branch (fst cs) e | _ => fst cs end, snd cs)
    | HFail => (fail (fst cs), snd cs)
    end.
  Definition hrun (es : list hev) : conn * bytes := fold_left hstep es (conn0, []).
End Conn.

(** ** Two nodes *)
Section Link.
  Variable utf8_lossy : bytes -> bytes.
  Variable parse_id : bytes -> option bytes.
  Variable parse_node : bytes -> option eid.
  Variable refuse : side -> bool.
  Variable own : side -> bytes.
  (** content of the bundle submitted under a handle *)
  Variable data_of : nat -> bytes.
  (** how many bytes written by a side the pipe (the buffers of both sockets)
      takes before a write blocks *)
  Variable cap : side -> N.

  Record link := Link { la : conn; lb : conn }.
  Definition at_ (l : link) (x : side) : conn := match x with A => la l | B => lb l end.
  Definition with_ (l : link) (x : side) (c : conn) : link := match x with A => Link c (lb l) | B => Link (la l) c end.
  (** A opened the connection *)
  Definition opened (x : side) : bool := match x with A => true | B => false end.
  Definition link0 : link := Link conn0 conn0.
  (** Writing waits for room: the task does nothing else meanwhile
      (AsyncWrite::write_all and flush within [write], net.rs:24-95). *)
  Definition busy (l : link) (x : side) : bool := cap x <? blen (c_out (at_ l x)).
  (** the first [n] bytes under way have arrived when [x] is polled *)
  Inductive lev := LPoll (x : side) (n : nat) (v : env) | LSubmit (x : side) (h : nat) (resp : bool) | LTimeout (x : side) | LClose (x : side) | LFail (x : side).
  Definition set_out (c : conn) (b : bytes) : conn := Conn (c_phase c) (c_held c) b (c_log c) (c_stores c) (c_new c).
  Definition lstep (l : link) (e : lev) : link :=
    match e with
    | LPoll x n v =>
        if busy l x then l
        else
          let pipe := c_out (at_ l (other x)) in
          let r := poll utf8_lossy parse_id parse_node (opened x) (refuse x) (own x) (at_ l x) v (take n pipe) in
          with_ (with_ l (other x) (set_out (at_ l (other x)) (snd r ++ drop n pipe))) x (fst r)
    | LSubmit x h resp => if busy l x then l else with_ l x (other_branch parse_id (refuse x) (at_ l x) (EvSubmit (data_of h) h resp))
    | LTimeout x => if busy l x then l else with_ l x (other_branch parse_id (refuse x) (at_ l x) EvTimeout)
    | LClose x => if busy l x then l else with_ l x (other_branch parse_id (refuse x) (at_ l x) EvQueueClosed)
    | LFail x => with_ l x (fail parse_id (refuse x) (at_ l x))
    end.
  Definition lrun (es : list lev) : link := fold_left lstep es link0.
End Link.
