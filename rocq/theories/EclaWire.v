(** Packets of external convergence layers on a TCP connection: the framing of
    cla/ecla/tcp.rs in both directions. *)
From Verif Require Import Bytes Ecla.
From stdpp Require Import prelude.
From Coq Require Import NArith Lia.
Open Scope N_scope.

Section wire.
(** serde_json on packets (cla/ecla/mod.rs:50-116), as bytes *)
Context (to_json : packet -> bytes) (of_json : bytes -> option packet).

(** ** From the node to the module *)
(** tcp.rs:117-119: the length is cast to 32 bits *)
Definition frame (data : bytes) : bytes := be 4 (blen data mod 2^32) ++ data.
(** tcp.rs:60-66: the packets taken from the channel of the connection, each
    with the number of bytes try_write took: not more than there are and
    possibly fewer; 0 stands for an error (the buffer of the socket is full).
    What was not taken is not tried again.  The result is what the module
    receives. *)
Definition written (x : packet * nat) : bytes := take (snd x) (frame (to_json (fst x))).
Definition to_module (out : list (packet * nat)) : bytes := concat (map written out).

(** ** From the module to the node *)
(** LengthDelimitedCodec::new (tcp.rs:48): four bytes of length, big-endian; at most 8 MiB *)
Definition FRAME_MAX : N := 8388608.
Inductive frame_res := FFrame (f rest : bytes) | FMore | FBad.
Definition next_frame (buf : bytes) : frame_res :=
  if blen buf <? 4 then FMore
  else
    let n := unbe (take 4 buf) in
    let body := drop 4 buf in
    if FRAME_MAX <? n then FBad
    else if blen body <? n then FMore
    else FFrame (take (N.to_nat n) body) (drop (N.to_nat n) body).
(** tcp.rs:45-58: FramedRead and try_for_each; it ends with the first error, in
    the framing or in the JSON, and with it the connection (68-72).
    [r_handled]: the packets given to handle_packet. *)
Record reader := Reader { r_buf : bytes; r_handled : list packet; r_open : bool }.
Definition reader0 : reader := Reader [] [] true.
(** [fuel]: each frame takes four bytes at least *)
Fixpoint drain (fuel : nat) (buf : bytes) (acc : list packet) : reader :=
  match fuel with
  | O => Reader buf acc true
  | S fuel =>
      match next_frame buf with
      | FMore => Reader buf acc true
      | FBad => Reader buf acc false
      | FFrame f rest => match of_json f with Some p => drain fuel rest (acc ++ [p]) | None => Reader buf acc false end
      end
  end.
(** some bytes arrive *)
Definition feed (r : reader) (chunk : bytes) : reader :=
  if r_open r then let b := r_buf r ++ chunk in drain (S (length b)) b (r_handled r) else r.
Definition from_module (chunks : list bytes) : reader := fold_left feed chunks reader0.
End wire.
