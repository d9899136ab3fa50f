(** From a peer to a transfer: the text of an address (core/peer.rs:157-176), how
    the convergence layers read it, and their command loops (cla/mtcp.rs,
    cla/udp.rs, cla/http.rs, cla/tcp/mod.rs, cla/httppull.rs, cla/dummy.rs);
    the UDP layer. *)
From stdpp Require Import prelude strings pretty.
From Coq Require Import NArith Lia.
From Verif Require Import Bytes Core Peers.
Open Scope N_scope.

(** ** std::net::SocketAddr::from_str *)
(** the result: an IPv4 address, or an IPv6 one left as text *)
Inductive sockaddr := SV4 (a b c d port : N) | SV6 (addr : string) (port : N).
Fixpoint take_digits (s : string) : list N * string :=
  match s with
  | "" => ([], "")
  | String c r =>
      let n := Ascii.N_of_ascii c in
      if (48 <=? n) && (n <=? 57) then let (ds, t) := take_digits r in (n - 48 :: ds, t) else ([], s)
  end.
Definition digits_value (ds : list N) : N := foldl (fun acc d => 10 * acc + d) 0 ds.
(** read_number(10, max_digits, allow_zero_prefix) for a type with values below [lim] *)
Definition number (max_digits : option nat) (zero_prefix : bool) (lim : N) (s : string) : option (N * string) :=
  let (ds, r) := take_digits s in
  if (length ds =? 0)%nat then None
  else if match max_digits with Some m => (m <? length ds)%nat | None => false end then None
  else if negb zero_prefix && (1 <? length ds)%nat && (default 1 (head ds) =? 0) then None
  else if digits_value ds <? lim then Some (digits_value ds, r) else None.
Definition given (c : N) (s : string) : option string :=
  match s with String x r => if Ascii.N_of_ascii x =? c then Some r else None | "" => None end.
Definition octet := number (Some 3%nat) false 256.
Definition port_of := number None true 65536.
Definition parse_v4 (s : string) : option sockaddr :=
  '(a, s) ← octet s; s ← given 46 s; '(b, s) ← octet s; s ← given 46 s; '(c, s) ← octet s; s ← given 46 s; '(d, s) ← octet s;
  s ← given 58 s; '(p, s) ← port_of s; if bool_decide (s = "") then Some (SV4 a b c d p) else None.
Section transfers.
(** the form [address]:port, for texts that begin with a bracket *)
Context (parse_v6 : string -> option (string * N)).
Definition parse_sock (s : string) : option sockaddr :=
  match parse_v4 s with
  | Some a => Some a
  | None => match given 91 s with
            | Some _ => '(a, p) ← parse_v6 s; Some (SV6 a p)
            | None => None
            end
  end.

(** ** Command loops.  What becomes of a transfer: tried at an address; done as
    there is nothing to send; refused; no answer (the sender reports an
    error).  A failed unwrap ends the task it is in: that of the layer (mtcp,
    udp) or that of the transfer (http, tcp). *)
Inductive kind := Mtcp | Udp | Http | Tcp | Pull | Dummy.
Inductive fate := Tried (a : sockaddr) (data : bytes) | Nothing | Refused | NoAnswer.
(** mtcp.rs:283-308, udp.rs:101-128, http.rs:77-97 with 25-38, tcp/mod.rs:736-761 with
    642, httppull.rs:170-187, dummy.rs:19-35; [alive]: the loop still runs.
    Messages that shut a layer down are left out.  Over UDP the socket is an
    IPv4 one and cannot be connected to an IPv6 address; over HTTP the address
    is put into the URL without brackets, which no URL with an IPv6 address is. *)
Definition on_transfer (k : kind) (alive : bool) (dest : string) (data : bytes) : bool * fate :=
  if negb alive then (false, NoAnswer)
  else
    match k with
    | Mtcp =>
        match data with
        | [] => (true, Nothing)
        | _ => match parse_sock dest with Some a => (true, Tried a data) | None => (false, NoAnswer) end
        end
    | Udp =>
        match data with
        | [] => (true, Nothing)
        | _ => match parse_sock dest with
               | Some (SV4 _ _ _ _ _ as a) => (true, Tried a data)
               | Some (SV6 _ _) => (true, Refused)
               | None => (false, NoAnswer)
               end
        end
    | Http =>
        match data with
        | [] => (true, Nothing)
        | _ => match parse_sock dest with
               | Some (SV4 _ _ _ _ _ as a) => (true, Tried a data)
               | _ => (true, NoAnswer)
               end
        end
    | Tcp => match parse_sock dest with Some a => (true, Tried a data) | None => (true, NoAnswer) end
    | Pull => (true, Refused)
    | Dummy => (true, Nothing)
    end.
Fixpoint transfers (k : kind) (alive : bool) (l : list (string * bytes)) : bool :=
  match l with [] => alive | (dest, data) :: l => transfers k (fst (on_transfer k alive dest data)) l end.
End transfers.

(** ** UDP (cla/udp.rs) *)
(** udp.rs:43-80 with one bundle; [bound], [connected], [sent]: what the calls to the
    socket return.  The datagrams sent and the report. *)
Definition udp_send (bound connected sent : bool) (data : bytes) : list bytes * bool :=
  if bound && connected then
    if 65535 <? blen data then ([], false)
    else if sent then ([data], true) else ([], false)
  else ([], false).
(** udp.rs:17-41: one datagram; it is read into a buffer of 65535 bytes, what does
    not fit is lost.  Bundles given to receive, and broken ones. *)
Definition udp_receive (dec_bundle : bytes -> option bundle) (st : list bundle * N) (datagram : bytes) : list bundle * N :=
  match dec_bundle (take (N.to_nat 65535) datagram) with
  | Some b => (fst st ++ [b], snd st)
  | None => (fst st, snd st + 1)
  end.
