(** Model of the TCPCLv4 wire format, cla/tcp/net.rs and cla/tcp/proto.rs. *)
From Verif Require Import Bytes.
From stdpp Require Import prelude.
From Coq Require Import NArith Lia.
Open Scope N_scope.

(** ** Messages (cla/tcp/proto.rs) *)

(** proto.rs:63-70 XferSegmentFlags: END = 0x01, START = 0x02 *)
Record seg_flags := SegFlags { f_end : bool; f_start : bool }.
(** bitflags [bits()] and [from_bits_truncate] *)
Definition seg_bits (f : seg_flags) : N :=
  (if f_end f then 1 else 0) + (if f_start f then 2 else 0).
Definition seg_of_bits (b : N) : seg_flags := SegFlags (N.testbit b 0) (N.testbit b 1).
Definition no_flags := SegFlags false false.

(** proto.rs:72-88 XferRefuseReasonCode 0..5, 121-137 SessTermReasonCode 0..5,
    41-51 MsgRejectReasonCode 1..3 *)
Inductive refuse_reason := RUnknown | RCompleted | RNoResources | RRetransmit | RNotAcceptable | RExtensionFailure.
Definition refuse_code r : N :=
  match r with RUnknown => 0 | RCompleted => 1 | RNoResources => 2 | RRetransmit => 3
             | RNotAcceptable => 4 | RExtensionFailure => 5 end.
Definition refuse_of_code (n : N) : option refuse_reason :=
  match n with 0 => Some RUnknown | 1 => Some RCompleted | 2 => Some RNoResources
             | 3 => Some RRetransmit | 4 => Some RNotAcceptable | 5 => Some RExtensionFailure
             | _ => None end.
Inductive term_reason := TUnknown | TIdleTimeout | TVersionMismatch | TBusy | TContactFailure | TResourceExhaustion.
Definition term_code r : N :=
  match r with TUnknown => 0 | TIdleTimeout => 1 | TVersionMismatch => 2 | TBusy => 3
             | TContactFailure => 4 | TResourceExhaustion => 5 end.
Definition term_of_code (n : N) : option term_reason :=
  match n with 0 => Some TUnknown | 1 => Some TIdleTimeout | 2 => Some TVersionMismatch
             | 3 => Some TBusy | 4 => Some TContactFailure | 5 => Some TResourceExhaustion
             | _ => None end.
Inductive reject_reason := JTypeUnknown | JUnsupported | JUnexpected.
Definition reject_code r : N := match r with JTypeUnknown => 1 | JUnsupported => 2 | JUnexpected => 3 end.
Definition reject_of_code (n : N) : option reject_reason :=
  match n with 1 => Some JTypeUnknown | 2 => Some JUnsupported | 3 => Some JUnexpected | _ => None end.

(** proto.rs:98-110 TransferExtensionItem; the only item type is BundleID = 1,
    the only flag CRITICAL = 1. *)
Record ext_item := ExtItem { x_critical : bool; x_data : bytes }.

(** proto.rs:138-176 *)
Record sess_init := SessInit { si_keepalive : N; si_segment_mru : N; si_transfer_mru : N; si_node_id : bytes }.
Record xfer_seg := XferSeg { xs_flags : seg_flags; xs_tid : N; xs_len : N; xs_buf : bytes; xs_ext : list ext_item }.

(** net.rs:11-21 TcpClPacket *)
Inductive packet :=
| PContactHeader (can_tls : bool)
| PSessInit (d : sess_init)
| PSessTerm (reply : bool) (r : term_reason)
| PXferSeg (d : xfer_seg)
| PXferAck (f : seg_flags) (tid len : N)
| PXferRefuse (r : refuse_reason) (tid : N)
| PKeepAlive
| PMsgReject (r : reject_reason) (header : N).

(** "dtn!" *)
Definition magic : bytes := [100; 116; 110; 33].

(** ** Writing (net.rs:24-95) *)

(** net.rs:50-56: one extension item; [ext.data.len() as u16] truncates. *)
Definition write_ext (x : ext_item) : bytes :=
  [if x_critical x then 1 else 0] ++ be 2 1 ++ be 2 (blen (x_data x)) ++ x_data x.
(** net.rs:49,55: running u32 length *)
Definition ext_total (l : list ext_item) : N :=
  fold_right (fun x acc => 5 + blen (x_data x) + acc) 0 l.
Definition write (p : packet) : bytes :=
  match p with
  | PSessInit d =>                                              (* net.rs:26-37 *)
      [7] ++ be 2 (si_keepalive d) ++ be 8 (si_segment_mru d) ++ be 8 (si_transfer_mru d)
      ++ be 2 (blen (si_node_id d)) ++ si_node_id d ++ be 4 0
  | PSessTerm reply r => [5; if reply then 1 else 0; term_code r] (* 38-42 *)
  | PXferSeg d =>                                               (* 43-67 *)
      [1; seg_bits (xs_flags d)] ++ be 8 (xs_tid d)
      ++ (if f_start (xs_flags d)
          then be 4 (ext_total (xs_ext d))
               ++ (if 0 <? ext_total (xs_ext d) then concat (map write_ext (xs_ext d)) else [])
          else [])
      ++ be 8 (xs_len d)
      ++ (if 0 <? xs_len d then xs_buf d else [])
  | PXferAck f tid len => [2; seg_bits f] ++ be 8 tid ++ be 8 len  (* 68-73 *)
  | PXferRefuse r tid => [3; refuse_code r] ++ be 8 tid            (* 74-78 *)
  | PKeepAlive => [4]                                              (* 79-81 *)
  | PMsgReject r h => [6; reject_code r; h]                        (* 82-86 *)
  | PContactHeader t => magic ++ [4; if t then 1 else 0]           (* 87-91 *)
  end.

(** ** Reading (net.rs:97-230) *)

(** Outcome of reading from the bytes received so far: [ROk a rest], more
    bytes needed (the read future stays pending), or a protocol error. *)
Inductive rres (A : Type) := ROk (a : A) (rest : bytes) | RWait | RErr.
Global Arguments ROk {A}. Global Arguments RWait {A}. Global Arguments RErr {A}.

Definition rbind {A B} (m : rres A) (k : A -> bytes -> rres B) : rres B :=
  match m with ROk a rest => k a rest | RWait => RWait | RErr => RErr end.
Notation "'let!' ( x , s ) := m 'in' k" := (rbind m (fun x s => k))
  (at level 200, x ident, s ident, m at level 100, k at level 200).

(** AsyncReadExt::read_exact of [n] bytes *)
Definition read_exact (n : N) (s : bytes) : rres bytes :=
  if n <=? blen s then ROk (take (N.to_nat n) s) (drop (N.to_nat n) s) else RWait.
(** read_u8/u16/u32/u64 *)
Definition read_uint (k : nat) (s : bytes) : rres N :=
  let! (b, s) := read_exact (N.of_nat k) s in ROk (unbe b) s.

(** net.rs:110-128: extension item loop.  [ext_len - 5 - item_length] is a u32
    subtraction: it wraps in a release build (modelled here); with overflow
    checks it would panic instead.  Items of unknown type are skipped.
    [fuel] bounds the loop: every iteration consumes at least 5 bytes. *)
Fixpoint read_exts (fuel : nat) (ext_len : N) (acc : list ext_item) (s : bytes)
  : rres (list ext_item * N) :=
  if ext_len <? 5 then ROk (acc, ext_len) s
  else
    match fuel with
    | O => RWait
    | S fuel =>
      let! (flag, s) := read_uint 1 s in
      let! (ty, s) := read_uint 2 s in
      let! (il, s) := read_uint 2 s in
      let! (data, s) := read_exact il s in
      let ext_len' := (ext_len + 2^32 - 5 - il) mod 2^32 in
      let acc' := if ty =? 1 then acc ++ [ExtItem (N.testbit flag 0) data] else acc in
      read_exts fuel ext_len' acc' s
    end.

(** net.rs:104-136 *)
Definition read_ext_block (f : seg_flags) (s : bytes) : rres (list ext_item) :=
  if f_start f then
    let! (ext_len, s) := read_uint 4 s in
    let! (r, s) := read_exts (S (length s)) ext_len [] s in
    let! (u, s) := read_exact (snd r) s in     (* 129-134: skip the rest *)
    ROk (fst r) s
  else ROk [] s.

Section Read.
  (** [String::from_utf8_lossy] on the node id bytes (std library) *)
  Variable utf8_lossy : bytes -> bytes.

  Definition read (s : bytes) : rres packet :=
    let! (ty, s) := read_uint 1 s in
    if ty =? 1 then                                    (* 101-153 *)
      let! (fl, s) := read_uint 1 s in
      let f := seg_of_bits fl in
      let! (tid, s) := read_uint 8 s in
      let! (ext, s) := read_ext_block f s in
      let! (len, s) := read_uint 8 s in
      let! (buf, s) := read_exact len s in
      ROk (PXferSeg (XferSeg f tid len buf ext)) s
    else if ty =? 2 then                               (* 154-160 *)
      let! (fl, s) := read_uint 1 s in
      let! (tid, s) := read_uint 8 s in
      let! (len, s) := read_uint 8 s in
      ROk (PXferAck (seg_of_bits fl) tid len) s
    else if ty =? 3 then                               (* 161-170 *)
      let! (rc, s) := read_uint 1 s in
      match refuse_of_code rc with
      | Some r => let! (tid, s) := read_uint 8 s in ROk (PXferRefuse r tid) s
      | None => RErr
      end
    else if ty =? 4 then ROk PKeepAlive s              (* 171 *)
    else if ty =? 5 then                               (* 172-181 *)
      let! (fl, s) := read_uint 1 s in
      let! (rc, s) := read_uint 1 s in
      match term_of_code rc with
      | Some r => ROk (PSessTerm (N.testbit fl 0) r) s
      | None => RErr
      end
    else if ty =? 7 then                               (* 182-202 *)
      let! (ka, s) := read_uint 2 s in
      let! (smru, s) := read_uint 8 s in
      let! (tmru, s) := read_uint 8 s in
      let! (nl, s) := read_uint 2 s in
      let! (nid, s) := read_exact nl s in
      let! (ei, s) := read_uint 4 s in
      if negb (ei =? 0) then RErr
      else ROk (PSessInit (SessInit ka smru tmru (utf8_lossy nid))) s
    else if ty =? 6 then                               (* 203-212 *)
      let! (rc, s) := read_uint 1 s in
      let! (h, s) := read_uint 1 s in
      match reject_of_code rc with
      | Some r => ROk (PMsgReject r h) s
      | None => RErr
      end
    else if ty =? 100 then                             (* 214-225: 'd' *)
      let! (b, s) := read_exact 6 s in
      if negb (bool_decide (take 4 b = magic)) then RErr
      else match b !! 4%nat, b !! 5%nat with
           | Some v, Some fl => if negb (v =? 4) then RErr else ROk (PContactHeader (N.testbit fl 0)) s
           | _, _ => RErr
           end
    else RErr.

  (** cla/tcp/mod.rs:530-540 receive_contact_header *)
  Definition receive_contact_header (s : bytes) : rres bool :=
    let! (b, s) := read_exact 6 s in
    if negb (bool_decide (take 4 b = magic)) then RErr
    else match b !! 4%nat, b !! 5%nat with
         | Some v, Some fl => if negb (v =? 4) then RErr else ROk (N.testbit fl 0) s
         | _, _ => RErr
         end.
End Read.
