(** Two TCPCL sessions connected by two FIFO byte streams (C05).
    The streams carry whole messages; C03 justifies this for bytes as long as
    reads are not abandoned half way (see C55). *)
From Verif Require Import Bytes TcpclWire TcpclSession.
From stdpp Require Import prelude.
From Coq Require Import NArith Lia.
Open Scope N_scope.

Inductive side := A | B.
Definition other (x : side) : side := match x with A => B | B => A end.

(** One endpoint of the connection with everything it did so far. *)
Record node := Node {
  n_sess : session;
  n_out : list packet;            (* written, not yet read by the other side *)
  n_log : list eff;               (* all effects so far, oldest first *)
  n_stores : list (bytes -> bool) (* store contents consulted so far *)
}.
Definition node0 : node := Node session0 [] [] [].

Definition msgs (es : list eff) : list packet :=
  omap (fun e => match e with EMsg p => Some p | _ => None end) es.

Section Pair.
  Variable parse_id : bytes -> option bytes.
  (** content of the bundle submitted under a handle *)
  Variable data_of : nat -> bytes.
  Variable refuse : side -> bool.
  (** segment size used by a side = segment_mru announced by the other *)
  Variable mru : side -> N.

  (** What can happen at one side: a message from the peer is read, the
      forwarding layer submits a bundle, the timer fires, the submission queue
      is closed, the connection fails (cla/tcp/mod.rs:112-212). *)
  Inductive sys_event :=
  | Deliver (to : side) (has : bytes -> bool) (resp : bool)
  | Submit (at_ : side) (h : nat) (resp : bool)
  | Timeout (at_ : side) | Close (at_ : side) | Break (at_ : side).

  Record pair := Pair { pa : node; pb : node }.
  Definition get (p : pair) (x : side) : node := match x with A => pa p | B => pb p end.
  Definition put (p : pair) (x : side) (n : node) : pair :=
    match x with A => Pair n (pb p) | B => Pair (pa p) n end.
  Definition pair0 := Pair node0 node0.

  (** local reaction of side [x] *)
  Definition react (x : side) (n : node) (e : event) (snap : list (bytes -> bool)) : node :=
    let r := step parse_id (refuse x) (mru x) (n_sess n) e in
    Node (fst r) (n_out n ++ msgs (snd r)) (n_log n ++ snd r) (n_stores n ++ snap).
  Definition pop (n : node) : node := Node (n_sess n) (tail (n_out n)) (n_log n) (n_stores n).

  Definition sys_step (p : pair) (e : sys_event) : pair :=
    match e with
    | Deliver x has resp =>
        match n_out (get p (other x)) with
        | [] => p
        | m :: _ =>
            put (put p (other x) (pop (get p (other x)))) x
                (react x (get p x) (EvPacket m has resp) [has])
        end
    | Submit x h resp => put p x (react x (get p x) (EvSubmit (data_of h) h resp) [])
    | Timeout x => put p x (react x (get p x) EvTimeout [])
    | Close x => put p x (react x (get p x) EvQueueClosed [])
    | Break x => put p x (react x (get p x) EvReadErr [])
    end.
  Definition sys_run (es : list sys_event) : pair := fold_left sys_step es pair0.
End Pair.
