(** Abandoned reads in the session loop (C55), cla/tcp/mod.rs:133-205.

    [tokio::select!] polls [TcpClPacket::read], the submission queue and the
    keepalive timer; when one of the other branches wins, the read future is
    dropped together with the bytes it has already taken from the stream
    ([read_exact] into locals is not cancellation safe). *)
From Verif Require Import Bytes TcpclWire.
From stdpp Require Import prelude.
From Coq Require Import NArith Lia.
Open Scope N_scope.

(** What happens to the reading half: bytes arrive and the read future is
    polled, or another branch of the select wins. *)
Inductive io := Arrive (b : bytes) | OtherBranch.

Section Reader.
  Variable utf8_lossy : bytes -> bytes.

  (** [held]: bytes taken by the current read future.  [out]: messages
      returned so far.  [broken]: a protocol error ended the session. *)
  Record reader := Reader { r_held : bytes; r_out : list packet; r_broken : bool }.
  Definition reader0 := Reader [] [] false.

  (** net.rs:97-230 in the loop of mod.rs:133: return messages as long as the
      bytes suffice.  [fuel] bounds the number of messages; each takes at least
      one byte. *)
  Fixpoint drain (fuel : nat) (s : bytes) : list packet * bytes * bool :=
    match fuel with
    | O => ([], s, false)
    | S fuel =>
        match read utf8_lossy s with
        | ROk p rest => let '(ps, s', e) := drain fuel rest in (p :: ps, s', e)
        | RWait => ([], s, false)
        | RErr => ([], s, true)
        end
    end.
  Definition io_step (r : reader) (e : io) : reader :=
    if r_broken r then r
    else match e with
         | Arrive b =>
             let s := r_held r ++ b in
             let '(ps, s', err) := drain (S (length s)) s in
             Reader s' (r_out r ++ ps) err
         | OtherBranch => Reader [] (r_out r) false
         end.
  Definition io_run (es : list io) : reader := fold_left io_step es reader0.
End Reader.

(** the bytes that arrived *)
Definition arrived (es : list io) : bytes :=
  concat (map (fun e => match e with Arrive b => b | OtherBranch => [] end) es).
