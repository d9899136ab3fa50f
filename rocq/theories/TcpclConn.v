(** The table of TCPCL sessions of a node (cla/tcp/mod.rs): concurrent transfers
    that look for a session, open one and put their bundle into its queue, and
    the listener.  What happens inside a session is in TcpclSession.v; here a
    session takes one bundle at a time from its queue, gives a verdict on it or
    ends.  On top of it the janitor, which waits for its transfers. *)
From stdpp Require Import prelude strings gmap.
From Coq Require Import Lia.

(** A session: its task is opening the TCP connection, exchanging contact header
    and parameters, running (with the transfer being sent), or gone, i.e. the
    receiver of its queue has been dropped *)
Inductive sphase := Connecting | Negotiating | Running (cur : option nat) | Gone.
Record sess := Sess { ss_addr : string; ss_active : bool; ss_phase : sphase; ss_queue : list nat }.
(** A transfer (a call of tcp_send_bundles, mod.rs:635-699): not started, opening
    session [s], about to put its bundle into the queue of [s], in that queue or
    being sent, or over with the verdict given, [None] if the channel for the
    verdict was dropped (which ClaSenderTask::transfer, cla/mod.rs:62-74, takes
    for a failure) *)
Inductive tphase := Fresh | Opening (s : nat) | Ready (s : nat) | Queued (s : nat) | Done (v : option bool).
Global Instance tphase_eq_dec : EqDecision tphase.
Proof. solve_decision. Defined.
Record xfer := Xfer { x_addr : string; x_phase : tphase }.
Record cstate := CState { cs_table : gmap string nat; cs_sess : list sess; cs_xfers : list xfer }.
Definition c0 : cstate := CState ∅ [] [].

(** mod.rs:52 INTERNAL_CHANNEL_BUFFER *)
Definition capacity : nat := 200.
Definition set_phase (p : tphase) (x : xfer) : xfer := Xfer (x_addr x) p.
Definition in_session (p : sphase) (x : sess) : sess := Sess (ss_addr x) (ss_active x) p (ss_queue x).
Definition with_queue (q : list nat) (x : sess) : sess := Sess (ss_addr x) (ss_active x) (ss_phase x) q.
(** The receiver of the queue of session [s] is dropped, and with it the bundles
    in the queue, the one being sent and the channels for their verdicts *)
Definition abandon (s : nat) (l : list xfer) : list xfer :=
  map (fun x => if bool_decide (x_phase x = Queued s) then set_phase (Done None) x else x) l.
Definition gone (x : sess) : sess := Sess (ss_addr x) (ss_active x) Gone [].
Definition end_session (s : nat) (st : cstate) : cstate :=
  CState (cs_table st) (alter gone s (cs_sess st)) (abandon s (cs_xfers st)).
Definition is_gone (s : nat) (st : cstate) : bool :=
  match cs_sess st !! s with Some x => match ss_phase x with Gone => true | _ => false end | None => true end.

Inductive label :=
| LSubmit (a : string) | LAccept (a : string) | LLook (t : nat) | LConnected (t : nat) | LRefused (t : nat) | LEnqueue (t : nat)
| LAgreed (s : nat) | LBroken (s : nat) | LTake (s : nat) | LVerdict (s : nat) (b : bool) | LEnd (s : nat).

Definition cstep (st : cstate) (l : label) : option cstate :=
  let ss := cs_sess st in
  let xs := cs_xfers st in
  match l with
  | LSubmit a => (* mod.rs:738-757: the layer gets a command and starts a task *)
      Some (CState (cs_table st) ss (xs ++ [Xfer a Fresh]))
  | LAccept a => (* mod.rs:603-631: the listener; the entry replaces any other *)
      Some (CState (<[a := length ss]> (cs_table st)) (ss ++ [Sess a false Negotiating []]) xs)
  | LLook t => (* mod.rs:644-666, under the lock *)
      match xs !! t with
      | Some (Xfer a Fresh) =>
          match cs_table st !! a with
          | Some s => if is_gone s st then Some (CState (<[a := length ss]> (cs_table st)) (ss ++ [Sess a true Connecting []]) (<[t := Xfer a (Opening (length ss))]> xs))
                      else Some (CState (cs_table st) ss (<[t := Xfer a (Ready s)]> xs))
          | None => Some (CState (<[a := length ss]> (cs_table st)) (ss ++ [Sess a true Connecting []]) (<[t := Xfer a (Opening (length ss))]> xs))
          end
      | _ => None
      end
  | LConnected t => (* mod.rs:672-682 *)
      match xs !! t with
      | Some (Xfer a (Opening s)) => Some (CState (cs_table st) (alter (in_session Negotiating) s ss) (<[t := Xfer a (Ready s)]> xs))
      | _ => None
      end
  | LRefused t => (* mod.rs:683-695: refused, or no connection within 3 s.  The
                     verdict is given just before the queue is dropped; here both at once. *)
      match xs !! t with
      | Some (Xfer a (Opening s)) => Some (end_session s (CState (cs_table st) ss (<[t := Xfer a (Done (Some false))]> xs)))
      | _ => None
      end
  | LEnqueue t => (* mod.rs:697-699; waits while the queue is full *)
      match xs !! t with
      | Some (Xfer a (Ready s)) =>
          match ss !! s with
          | None | Some (Sess _ _ Gone _) => Some (CState (cs_table st) ss (<[t := Xfer a (Done None)]> xs))
          | Some x => if bool_decide (length (ss_queue x) < capacity)
                      then Some (CState (cs_table st) (<[s := with_queue (ss_queue x ++ [t]) x]> ss) (<[t := Xfer a (Queued s)]> xs))
                      else None
          end
      | _ => None
      end
  | LAgreed s => (* mod.rs:541-592: contact headers and parameters exchanged *)
      match ss !! s with
      | Some x => match ss_phase x with Negotiating => Some (CState (cs_table st) (<[s := in_session (Running None) x]> ss) xs) | _ => None end
      | None => None
      end
  | LBroken s => (* mod.rs:550-556, 562-563, 593: connection or exchange failed, or
                    no usable node id *)
      match ss !! s with
      | Some x => match ss_phase x with Negotiating => Some (end_session s st) | _ => None end
      | None => None
      end
  | LTake s => (* mod.rs:166-184: the next bundle, if none is being sent *)
      match ss !! s with
      | Some x => match ss_phase x, ss_queue x with
                  | Running None, t :: q => Some (CState (cs_table st) (<[s := Sess (ss_addr x) (ss_active x) (Running (Some t)) q]> ss) xs)
                  | _, _ => None
                  end
      | None => None
      end
  | LVerdict s b => (* a verdict on the bundle being sent; see C05, C06 *)
      match ss !! s with
      | Some x => match ss_phase x with
                  | Running (Some t) => Some (CState (cs_table st) (<[s := in_session (Running None) x]> ss) (alter (set_phase (Done (Some b))) t xs))
                  | _ => None
                  end
      | None => None
      end
  | LEnd s => (* mod.rs:112-130: the session ends for any reason *)
      match ss !! s with
      | Some x => match ss_phase x with Running _ => Some (end_session s st) | _ => None end
      | None => None
      end
  end.
Fixpoint crun (st : cstate) (ls : list label) : option cstate :=
  match ls with [] => Some st | l :: ls => st' ← cstep st l; crun st' ls end.

(** ** The janitor (dtnd/cron.rs, core/mod.rs:143-203, core/processing.rs:299-440)
    A round goes through groups of transfers: one group for each bundle, or
    one group for all with parallel processing.  The transfers of a group
    are started together and the next group has to wait for all of them; the
    next round has to wait for all groups.  Given are the addresses the
    routing chose; only transfers over TCPCL, other parts of a round left out. *)
Record jstate := JState { j_conn : cstate; j_todo : list (list string); j_wait : list nat; j_rounds : nat }.
Definition j0 : jstate := JState c0 [] [] 0.
Definition over (st : cstate) (t : nat) : bool :=
  match cs_xfers st !! t with Some (Xfer _ (Done _)) => true | _ => false end.
Inductive jlabel := JRound (groups : list (list string)) | JNext | JConn (l : label).
Definition submit_all (g : list string) (st : cstate) : cstate :=
  CState (cs_table st) (cs_sess st) (cs_xfers st ++ map (fun a => Xfer a Fresh) g).
Definition jstep (j : jstate) (l : jlabel) : option jstate :=
  match l with
  | JRound gs =>
      match j_todo j with
      | [] => if forallb (over (j_conn j)) (j_wait j) then Some (JState (j_conn j) gs [] (S (j_rounds j))) else None
      | _ => None
      end
  | JNext =>
      match j_todo j with
      | g :: gs => if forallb (over (j_conn j)) (j_wait j)
                   then Some (JState (submit_all g (j_conn j)) gs (seq (length (cs_xfers (j_conn j))) (length g)) (j_rounds j)) else None
      | [] => None
      end
  | JConn l => c ← cstep (j_conn j) l; Some (JState c (j_todo j) (j_wait j) (j_rounds j))
  end.
Fixpoint jrun (j : jstate) (ls : list jlabel) : option jstate :=
  match ls with [] => Some j | l :: ls => j' ← jstep j l; jrun j' ls end.
