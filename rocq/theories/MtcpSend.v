(** Sending over MTCP: concurrent calls of mtcp_send_bundles (cla/mtcp.rs:203-262,
    started by the command loop, 283-301) and the table of connections. *)
From stdpp Require Import prelude gmap.
From Coq Require Import NArith Lia.
From Verif Require Import Bytes Mtcp.
Open Scope N_scope.

(** A connection to a peer: its address, the bytes that reach the peer, and
    whether it has failed.  On a failed connection writes may still be taken
    by the operating system; they do not reach the peer.  (Bytes that were taken
    before may be lost too; they are counted as received here, and nothing is
    proved about failed connections.) *)
Record stream := Stream { s_addr : N; s_bytes : bytes; s_failed : bool }.
(** Where a transfer is: about to look for a connection (229-230); about to
    connect (231-232); connected, about to store the connection (233); about to
    get the connection from the table (241-246); writing, with what is left
    (248); about to remove the connection after an error (250); reported as
    successful (261), as failed without a connection (236), as failed on a
    connection (251); panicked as the connection was gone (244) *)
Inductive phase :=
| Look | Dial | Store (sid : nat) | Fetch | Writing (sid : nat) (rest : bytes) | Drop (sid : nat)
| Sent (sid : nat) | NotConnected | NotSent (sid : nat) | Gone.
Record job := Job { j_addr : N; j_data : bytes; j_phase : phase }.
Record mstate := MState { m_table : gmap N nat; m_streams : list stream; m_jobs : list job }.
Definition m0 : mstate := MState ∅ [] [].

(** A step: a new transfer; a step of transfer [i] (locking, looking up and
    unlocking is one step, as each statement locks anew); connecting, which may
    fail; writing some of the bytes, or getting an error, which means that the
    connection has failed; and a connection failing by itself. *)
Inductive label :=
| New (addr : N) (data : bytes) | Step (i : nat) | Connect (i : nat) (ok : bool)
| Write (i : nat) (n : nat) | Error (i : nat) | Fail (sid : nat).
Definition set_phase (st : mstate) (i : nat) (j : job) (p : phase) : mstate :=
  MState (m_table st) (m_streams st) (<[i := Job (j_addr j) (j_data j) p]> (m_jobs st)).
Definition fail (s : stream) : stream := Stream (s_addr s) (s_bytes s) true.
Definition put (b : bytes) (s : stream) : stream :=
  Stream (s_addr s) (if s_failed s then s_bytes s else s_bytes s ++ b) (s_failed s).
(** [None]: the step is not possible *)
Definition mstep (st : mstate) (l : label) : option mstate :=
  match l with
  | New a d => Some (MState (m_table st) (m_streams st) (m_jobs st ++ [Job a d Look]))
  | Fail sid => Some (MState (m_table st) (alter fail sid (m_streams st)) (m_jobs st))
  | Step i =>
      j ← m_jobs st !! i;
      match j_phase j with
      | Look => Some (set_phase st i j (if bool_decide (is_Some (m_table st !! j_addr j)) then Fetch else Dial))
      | Store sid =>
          Some (set_phase (MState (<[j_addr j := sid]> (m_table st)) (m_streams st) (m_jobs st)) i j Fetch)
      | Fetch =>
          Some (set_phase st i j (match m_table st !! j_addr j with
                                  | Some sid => Writing sid (mtcp_encode (j_data j))
                                  | None => Gone
                                  end))
      | Drop sid =>
          Some (set_phase (MState (delete (j_addr j) (m_table st)) (m_streams st) (m_jobs st)) i j (NotSent sid))
      | _ => None
      end
  | Connect i ok =>
      j ← m_jobs st !! i;
      match j_phase j, ok with
      | Dial, true =>
          Some (set_phase (MState (m_table st) (m_streams st ++ [Stream (j_addr j) [] false]) (m_jobs st)) i j
                  (Store (length (m_streams st))))
      | Dial, false => Some (set_phase st i j NotConnected)
      | _, _ => None
      end
  | Write i n =>
      j ← m_jobs st !! i;
      match j_phase j with
      | Writing sid rest =>
          if (n =? 0)%nat || (length rest <? n)%nat then None
          else Some (set_phase (MState (m_table st) (alter (put (take n rest)) sid (m_streams st)) (m_jobs st)) i j
                       (match drop n rest with [] => Sent sid | rest' => Writing sid rest' end))
      | _ => None
      end
  | Error i =>
      j ← m_jobs st !! i;
      match j_phase j with
      | Writing sid rest =>
          Some (set_phase (MState (m_table st) (alter fail sid (m_streams st)) (m_jobs st)) i j (Drop sid))
      | _ => None
      end
  end.
Fixpoint mrun (st : mstate) (ls : list label) : option mstate :=
  match ls with [] => Some st | l :: ls => st' ← mstep st l; mrun st' ls end.
