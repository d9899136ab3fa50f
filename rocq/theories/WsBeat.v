(** Model of the heartbeat of websocket sessions (core/dtn7/src/dtnd/ws.rs), over
    the sessions of Apps.v, with times in milliseconds. *)
From stdpp Require Import prelude strings gmap.
From Coq Require Import NArith.
From Verif Require Import Core Routing Apps.
Open Scope N_scope.

(** ws.rs:27-29 *)
Definition HEARTBEAT_INTERVAL : N := 5000.
Definition CLIENT_TIMEOUT : N := 30000.
(** a session's heartbeat: when it began, [hb] of ws.rs:48, and the ticks the task
    has taken of its interval *)
Record beat := Beat { be_begin : N; be_hb : N; be_ticks : N }.
(** [now] is the time of the last event *)
Record beats := Beats { bs_now : N; bs_apps : apps; bs_beats : list beat }.
Inductive bev :=
| BEv (t : N) (e : ev)                (* an event of Apps.v other than the end of a session *)
| BTick (i : nat) (t0 t : N) (drop : bool)  (* ws.rs:95-108: the clock is read at t0, the session locked at t *)
| BEnd (t : N) (i : nat).             (* ws.rs:129-133: one of the other tasks ends *)
(** ws.rs:428, 436: ping and pong set [hb]; no other message does *)
Definition sign (e : ev) : option nat :=
  match e with EMsg i MPing | EMsg i MPong => Some i | _ => None end.
Definition beat_ev (t : N) (e : ev) (l : list beat) : list beat :=
  match e with
  | EOpen => l ++ [Beat t t 0]        (* ws.rs:159 *)
  | _ => match sign e with
         | Some i => alter (fun x => Beat (be_begin x) t (be_ticks x)) i l
         | None => l
         end
  end.
Definition ping (st : apps) (i : nat) : apps :=
  match a_sessions st !! i with Some s => set_session st i (with_out s (ws_out s ++ [OPing])) | None => st end.

Section beat.
Context (parse_eid : string -> option eid) (host : eid) (local_eid : string -> option eid).
Context (dec_bundle : list N -> option bundle) (dec_send : fmt -> list N -> option send_data).
Notation step := (step parse_eid host local_eid dec_bundle dec_send).
(** tokio's interval: its tick number k (from 0) is over no earlier than k times the
    period after it began; it may be later.  ws.rs:90-91: the first tick of an
    interval is over at once, so the first heartbeat is not put off.  The delay until
    the task begins counts as lateness of the ticks.  ws.rs:97: duration_since of an
    earlier time is 0, as subtraction on N. *)
Inductive bstep : beats -> bev -> beats -> Prop :=
| b_ev now st l t e st' :
    now <= t -> step st e st' -> (forall i, e <> EClose i) -> bstep (Beats now st l) (BEv t e) (Beats t st' (beat_ev t e l))
| b_tick now st l i t0 t s b :
    now <= t -> t0 <= t -> a_sessions st !! i = Some s -> ws_open s = true -> l !! i = Some b ->
    be_begin b + HEARTBEAT_INTERVAL * be_ticks b <= t0 -> t0 - be_hb b <= CLIENT_TIMEOUT ->
    bstep (Beats now st l) (BTick i t0 t false)
      (Beats t (ping st i) (alter (fun x => Beat (be_begin x) (be_hb x) (be_ticks x + 1)) i l))
| b_drop now st l i t0 t s b st' :
    now <= t -> t0 <= t -> a_sessions st !! i = Some s -> ws_open s = true -> l !! i = Some b ->
    be_begin b + HEARTBEAT_INTERVAL * be_ticks b <= t0 -> CLIENT_TIMEOUT < t0 - be_hb b ->
    step st (EClose i) st' ->
    bstep (Beats now st l) (BTick i t0 t true) (Beats t st' l)
| b_end now st l t i st' :
    now <= t -> step st (EClose i) st' -> bstep (Beats now st l) (BEnd t i) (Beats t st' l).
(** the states on the way are kept, the first one first *)
Inductive bruns : beats -> list (bev * beats) -> beats -> Prop :=
| bruns_nil st : bruns st [] st
| bruns_step st e st1 tr st2 : bstep st e st1 -> bruns st1 tr st2 -> bruns st ((e, st1) :: tr) st2.
End beat.

(** * Words for the statements *)
Definition bstart : beats := Beats 0 (AppState [] [] []) [].
Definition no_pings (l : list wsout) : list wsout := flat_map (fun o => match o with OPing => [] | _ => [o] end) l.
Definition time (v : bev) : N := match v with BEv t _ | BTick _ _ t _ | BEnd t _ => t end.
(** when the sessions were opened, and when signs of life came from client [i] *)
Definition opened (tr : list bev) : list N := flat_map (fun v => match v with BEv t EOpen => [t] | _ => [] end) tr.
Definition signs (i : nat) (tr : list bev) : list N :=
  flat_map (fun v => match v with BEv t e => if decide (sign e = Some i) then [t] else [] | _ => [] end) tr.
(** [t] is not later than [d] after the tick that each open session waits for *)
Definition due_ok (d : N) (st : beats) (t : N) : Prop :=
  forall i s b, a_sessions (bs_apps st) !! i = Some s -> ws_open s = true -> bs_beats st !! i = Some b ->
    t <= be_begin b + HEARTBEAT_INTERVAL * be_ticks b + d.
(** no tick is more than [d] late *)
Fixpoint timely (d : N) (st : beats) (tr : list (bev * beats)) : Prop :=
  match tr with
  | [] => True
  | (v, st1) :: tr => due_ok d st (time v) /\ timely d st1 tr
  end.
