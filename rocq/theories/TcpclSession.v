(** Model of an established TCPCL session, cla/tcp/mod.rs:83-514. *)
From Verif Require Import Bytes TcpclWire.
From stdpp Require Import prelude.
From Coq Require Import NArith Lia.
Open Scope N_scope.

(** cla/mod.rs TransferResult *)
Inductive result := Successful | Failure.

(** mod.rs:98-103 *)
Inductive recv_state := RIdle | Receiving (buf : bytes) (tid : N) | RTerminated.
(** mod.rs:104-109; the oneshot sender is represented by the handle of the
    submission it belongs to. *)
Inductive send_state :=
| SIdle | Sending (len : N) (h : nat) | TransferRequest (data : bytes) (h : nat) | STerminated.

(** mod.rs:87-96 (fields the session logic uses) plus the loop variables of
    [run], mod.rs:113-115.  Sockets are not modelled: packets are delivered
    and emitted as values, justified by the wire round trip (C03). *)
Record session := Session {
  s_recv : recv_state;
  s_send : send_state;
  s_last_tid : N;
  s_ka_sent : bool;
  s_ka_recv : bool
}.

(** Observable effects of a step, in order. *)
Inductive eff :=
| EMsg (p : packet)                  (* written to the peer *)
| EVerdict (h : nat) (r : result)    (* transfer result sent to the submitter *)
| EProcess (buf : bytes)             (* handed to core::processing::receive *)
| EBroken (buf : bytes)              (* STATS.broken += 1 *)
| EPanic.                            (* the session task dies *)

(** Rust's slice::chunks(n); the caller guarantees n > 0.  [fuel] bounds the
    loop, [length l] suffices as every chunk is non-empty. *)
Fixpoint chunks_fuel (fuel : nat) (n : nat) (l : bytes) : list bytes :=
  match fuel with
  | O => []
  | S fuel => match l with [] => [] | _ => take n l :: chunks_fuel fuel n (drop n l) end
  end.
Definition chunks (n : N) (l : bytes) : list bytes := chunks_fuel (length l) (N.to_nat n) l.

(** mod.rs:441-473: one segment per chunk; START on the first unless the
    request has already been sent; END on the last. *)
Definition plain_seg (tid : N) (c : bytes) : xfer_seg := XferSeg no_flags tid (blen c) c [].
Definition set_start (s : xfer_seg) : xfer_seg :=
  XferSeg (SegFlags (f_end (xs_flags s)) true) (xs_tid s) (xs_len s) (xs_buf s) (xs_ext s).
Definition set_end (s : xfer_seg) : xfer_seg :=
  XferSeg (SegFlags true (f_start (xs_flags s))) (xs_tid s) (xs_len s) (xs_buf s) (xs_ext s).
Definition on_head {A} (f : A -> A) (l : list A) : list A :=
  match l with [] => [] | x :: l => f x :: l end.
Fixpoint on_last {A} (f : A -> A) (l : list A) : list A :=
  match l with [] => [] | [x] => [f x] | x :: l => x :: on_last f l end.
Definition segments (refuse_existing : bool) (mru tid : N) (data : bytes) : list xfer_seg :=
  let segs := map (plain_seg tid) (chunks mru data) in
  let segs := if refuse_existing then segs else on_head set_start segs in
  on_last set_end segs.

Section Session.
  (** Bundle::try_from(bytes) (bp7), reduced to the bundle id on success *)
  Variable parse_id : bytes -> option bytes.
  (** configuration and the peer's announced segment size *)
  Variable refuse_existing : bool.
  Variable mru : N.

  Definition terminated (s : session) : session :=
    Session RTerminated STerminated (s_last_tid s) (s_ka_sent s) (s_ka_recv s).
  Definition set_states (s : session) (r : recv_state) (x : send_state) : session :=
    Session r x (s_last_tid s) (s_ka_sent s) (s_ka_recv s).

  (** mod.rs:225-248 process_bundle *)
  Definition process_bundle (buf : bytes) (tid : N) : list eff :=
    match parse_id buf with
    | Some _ => [EProcess buf]
    | None => [EBroken buf; EMsg (PXferRefuse RNotAcceptable tid)]
    end.

  (** mod.rs:436-487 send_bundle.  [chunks(0)] panics.  [resp] tells whether
      the submitter still waits for the result (oneshot::Sender::send). *)
  Definition send_bundle (s : session) (data : bytes) (h : nat) (resp : bool) : option (send_state * list eff) * list eff :=
    if mru =? 0 then (None, [EPanic])
    else
      let segs := segments refuse_existing mru (s_last_tid s) data in
      if bool_decide (segs = []) then
        if resp then (Some (SIdle, [EVerdict h Failure]), []) else (None, [])
      else (Some (Sending (blen data) h, map (fun x => EMsg (PXferSeg x)) segs), []).

  (** mod.rs:407-435 send (called by run with state.1 = Idle).  [None]: error
      or panic, after which run terminates the session. *)
  Definition send (s : session) (data : bytes) (h : nat) (resp : bool) : session * list eff :=
    let s := Session (s_recv s) (s_send s) (s_last_tid s + 1) (s_ka_sent s) (s_ka_recv s) in
    if refuse_existing then
      match parse_id data with
      | None => (terminated s, [])
      | Some bid =>
        (set_states s (s_recv s) (TransferRequest data h),
         [EMsg (PXferSeg (XferSeg (SegFlags false true) (s_last_tid s) 0 [] [ExtItem false bid]))])
      end
    else
      match send_bundle s data h resp with
      | (Some (x, es), _) => (set_states s (s_recv s) x, es)
      | (None, es) => (terminated s, es)
      end.

  (** mod.rs:300-325: is there a known bundle id among the extensions?  [has]
      is STORE.has_item at this moment.  (The String::from_utf8 check is
      subsumed: a non UTF-8 id is in no store.) *)
  Definition refused (has : bytes -> bool) (exts : list ext_item) : bool :=
    refuse_existing && existsb (fun x => has (x_data x)) exts.

  (** mod.rs:252-404 receive *)
  Definition receive (s : session) (has : bytes -> bool) (resp : bool) (p : packet) : session * list eff :=
    match p with
    | PSessTerm reply r =>
        (terminated s, if reply then [] else [EMsg (PSessTerm true r)])
    | PXferSeg d =>
        match s_recv s with
        | Receiving buf tid =>
            if f_start (xs_flags d) then (terminated s, [])
            else if negb (tid =? xs_tid d) then (terminated s, [])
            else
              let buf' := buf ++ xs_buf d in
              let ack := EMsg (PXferAck no_flags (xs_tid d) (blen buf')) in
              if f_end (xs_flags d)
              then (set_states s RIdle (s_send s), ack :: process_bundle buf' (xs_tid d))
              else (set_states s (Receiving buf' (xs_tid d)) (s_send s), [ack])
        | RIdle =>
            if negb (f_start (xs_flags d)) then (terminated s, [])
            else if refused has (xs_ext d) then
              (s, [EMsg (PXferRefuse RNotAcceptable (xs_tid d))])
            else
              let ack := EMsg (PXferAck no_flags (xs_tid d) (xs_len d)) in
              if f_end (xs_flags d)
              then (set_states s RIdle (s_send s), ack :: process_bundle (xs_buf d) (xs_tid d))
              else (set_states s (Receiving (xs_buf d) (xs_tid d)) (s_send s), [ack])
        | RTerminated => (terminated s, [])
        end
    | PXferAck f tid len =>
        match s_send s with
        | TransferRequest data h =>
            if negb (tid =? s_last_tid s) then (terminated s, [])
            else match send_bundle s data h resp with
                 | (Some (x, es), _) => (set_states s (s_recv s) x, es)
                 | (None, es) => (terminated s, es)
                 end
        | Sending total h =>
            if negb (tid =? s_last_tid s) then (terminated s, [])
            else if len <? total then (s, [])
            else if resp then (set_states s (s_recv s) SIdle, [EVerdict h Successful])
            else (terminated s, [])
        | _ => (terminated s, [])
        end
    | PXferRefuse r tid =>
        match s_send s with
        | TransferRequest data h =>
            if negb (tid =? s_last_tid s) then (terminated s, [])
            else if resp then (set_states s (s_recv s) SIdle, [EVerdict h Successful])
            else (terminated s, [])
        | Sending total h =>
            if negb (tid =? s_last_tid s) then (terminated s, [])
            else if resp then (set_states s (s_recv s) SIdle, [EVerdict h Failure])
            else (terminated s, [])
        | _ => (terminated s, [])
        end
    | _ => (terminated s, [])
    end.

  Definition set_ka (s : session) (sent recv : bool) : session :=
    Session (s_recv s) (s_send s) (s_last_tid s) sent recv.

  (** What the select loop of [run] (mod.rs:112-212) reacts to.  Write errors
      and socket errors are [EvReadErr]: both terminate the session. *)
  Inductive event :=
  | EvPacket (p : packet) (has : bytes -> bool) (resp : bool)
  | EvReadErr
  | EvSubmit (data : bytes) (h : nat) (resp : bool)
  | EvQueueClosed
  | EvTimeout.

  Definition is_terminated (s : session) : bool :=
    match s_recv s, s_send s with
    | RTerminated, _ => true | _, STerminated => true | _, _ => false end.

  (** One iteration of the loop in [run].  The queue branch is guarded by
      SendState::Idle (mod.rs:168): otherwise the submission stays queued. *)
  Definition step (s : session) (e : event) : session * list eff :=
    if is_terminated s then (s, [])
    else
      match e with
      | EvPacket PKeepAlive _ _ =>
          if s_ka_sent s then (set_ka s false true, [])
          else (set_ka s true true, [EMsg PKeepAlive])
      | EvPacket p has resp =>
          let r := receive s has resp p in (set_ka (fst r) false false, snd r)
      | EvReadErr => (terminated s, [])
      | EvSubmit data h resp =>
          match s_send s with
          | SIdle => let r := send s data h resp in (set_ka (fst r) false false, snd r)
          | _ => (s, [])
          end
      | EvQueueClosed =>
          match s_send s with
          | SIdle => (set_ka (terminated s) false false, [EMsg (PSessTerm false TUnknown)])
          | _ => (s, [])
          end
      | EvTimeout =>
          let ka := if s_ka_sent s then [] else [EMsg PKeepAlive] in
          let s' := set_ka s true (s_ka_recv s) in
          if s_ka_recv s then (s', ka)
          else (terminated s', ka ++ [EMsg (PSessTerm false TIdleTimeout)])
      end.

  Fixpoint run (s : session) (es : list event) : session * list eff :=
    match es with
    | [] => (s, [])
    | e :: es => let r := step s e in let r' := run (fst r) es in (fst r', snd r ++ snd r')
    end.

  (** mod.rs:113-115, 586 *)
  Definition session0 : session := Session RIdle SIdle 0 false false.
End Session.

(** mod.rs:492-514 negotiate_session: [local] is what this node sent
    (mod.rs:495-500), [remote] what it received. *)
Definition local_params (node_id : bytes) : sess_init := SessInit 30 64000 64000 node_id.
Definition negotiate (local remote : sess_init) : sess_init * sess_init :=
  let ka := N.min (si_keepalive local) (si_keepalive remote) in
  (SessInit ka (si_segment_mru local) (si_transfer_mru local) (si_node_id local),
   SessInit ka (si_segment_mru remote) (si_transfer_mru remote) (si_node_id remote)).
