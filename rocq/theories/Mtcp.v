(** Model of the MTCP convergence layer codec, cla/mtcp.rs. *)
From Verif Require Import Bytes.
From stdpp Require Import prelude.
From Coq Require Import NArith Lia.
Open Scope N_scope.

(** cla/mtcp.rs:32-39  enum CborByteString *)
Inductive cbor_byte_string := CLen (n : N) | CU8 | CU16 | CU32 | CU64 | CNot.

(** cla/mtcp.rs:41-65  cbor_parse_byte_string_len_first.
    [input & 0xe0 != 0x40] is written with [/ 32], [input & 0x1f] with [mod 32]. *)
Definition parse_first (input : N) : cbor_byte_string :=
  if negb (input / 32 =? 2) then CNot
  else
    let number := input mod 32 in
    if number <? 24 then CLen number
    else if number =? 24 then CU8
    else if number =? 25 then CU16
    else if number =? 26 then CU32
    else if number =? 27 then CU64
    else CNot.

(** cla/mtcp.rs:67-76  cbor_hdr_len *)
Definition hdr_len (input : N) : N :=
  match parse_first input with
  | CLen _ => 1 | CU8 => 2 | CU16 => 3 | CU32 => 5 | CU64 => 9 | CNot => 0
  end.

(** cla/mtcp.rs:78-101  cbor_parse_byte_string_len.  [None] is the index
    panic; the shifts and additions are those of the source (on u64). *)
Definition parse_len (input : bytes) : option N :=
  i0 ← input !! 0%nat;
  match parse_first i0 with
  | CLen len => Some len
  | CU8 => input !! 1%nat
  | CU16 => i1 ← input !! 1%nat; i2 ← input !! 2%nat; Some (i1 * 256 + i2)
  | CU32 =>
      i1 ← input !! 1%nat; i2 ← input !! 2%nat; i3 ← input !! 3%nat; i4 ← input !! 4%nat;
      Some (i1 * 16777216 + i2 * 65536 + i3 * 256 + i4)
  | CU64 =>
      i1 ← input !! 1%nat; i2 ← input !! 2%nat; i3 ← input !! 3%nat; i4 ← input !! 4%nat;
      i5 ← input !! 5%nat; i6 ← input !! 6%nat; i7 ← input !! 7%nat; i8 ← input !! 8%nat;
      Some (i1 * 72057594037927936 + i2 * 281474976710656 + i3 * 1099511627776 + i4 * 4294967296
            + i5 * 16777216 + i6 * 65536 + i7 * 256 + i8)
  | CNot => Some 0
  end.

(** 2^64: [usize] is 64 bits wide (assumption: 64-bit target). *)
Definition usize_max1 : N := 2 ^ 64.

(** serde_cbor::to_vec of a [serde_bytes] buffer, cla/mtcp.rs:106,141,221:
    definite-length byte string with the shortest header (library behaviour). *)
Definition cbor_bytes_header (len : N) : bytes :=
  if len <? 24 then [64 + len]
  else if len <? 2^8 then 88 :: be 1 len
  else if len <? 2^16 then 89 :: be 2 len
  else if len <? 2^32 then 90 :: be 4 len
  else 91 :: be 8 len.

(** cla/mtcp.rs:137-146 Encoder::encode and 219-227 (mtcp_send_bundles) *)
Definition mtcp_encode (payload : bytes) : bytes :=
  cbor_bytes_header (blen payload) ++ payload.
Definition mtcp_stream (payloads : list bytes) : bytes :=
  concat (map mtcp_encode payloads).

(** serde_cbor::from_slice::<MPDU>(slice): the slice must be one byte string
    with nothing behind it (library behaviour). *)
Definition mpdu_from_slice (s : bytes) : option bytes :=
  i0 ← s !! 0%nat;
  n ← parse_len s;
  let h := hdr_len i0 in
  if h =? 0 then None
  else
    let body := drop (N.to_nat h) s in
    if blen body =? n then Some body else None.

(** Result of one call of [decode] on the read buffer. *)
Inductive dec_result :=
| DWait                                (* Ok(None) *)
| DFrame (frame : bytes) (rest : bytes) (* Ok(Some(frame)), buffer advanced *)
| DErr                                 (* Err(_) *)
| DPanic.                              (* index out of bounds *)

(** cla/mtcp.rs:152-198  Decoder::decode.  [slice0 10 buf] is [&buf[0..10]]. *)
Definition decode (buf : bytes) : dec_result :=
  if blen buf <? 10 then DWait
  else
    match buf !! 0%nat with
    | None => DPanic
    | Some i0 =>
      if hdr_len i0 =? 0 then DErr
      else
        match parse_len (take 10 buf) with
        | None => DPanic
        | Some n =>
          let sum := hdr_len i0 + n in
          if usize_max1 <=? sum then DErr                (* checked_add overflow *)
          else if sum =? 0 then DErr                     (* checked_sub underflow *)
          else
            let expected_pos := sum - 1 in
            if expected_pos <? blen buf then
              match buf !! N.to_nat expected_pos with
              | None => DPanic
              | Some t =>
                if negb (t =? 255) then DErr
                else
                  match mpdu_from_slice (take (N.to_nat expected_pos + 1)%nat buf) with
                  | Some f => DFrame f (drop (N.to_nat expected_pos + 1)%nat buf)
                  | None => DErr
                  end
              end
            else DWait
        end
    end.

(** State of one incoming connection: cla/mtcp.rs:315-345 handle_connection on
    top of tokio_util's [Framed].  [c_frames] are the frames yielded so far. *)
Inductive conn_status := Open | Failed | Panicked.
Record conn := Conn { c_buf : bytes; c_frames : list bytes; c_status : conn_status }.
Definition conn0 := Conn [] [] Open.

(** Framed::poll_next: decode repeatedly until it wants more data or fails.
    [fuel] bounds the loop; every frame consumes at least one byte so
    [S (length buf)] is never exhausted (proved: [drain_fuel_enough]). *)
Fixpoint drain (fuel : nat) (buf : bytes) (acc : list bytes) : conn :=
  match fuel with
  | O => Conn buf acc Panicked
  | S fuel =>
    match decode buf with
    | DWait => Conn buf acc Open
    | DErr => Conn buf acc Failed
    | DPanic => Conn buf acc Panicked
    | DFrame f rest => drain fuel rest (acc ++ [f])
    end
  end.

(** One successful socket read appends a chunk to the read buffer. *)
Definition feed (c : conn) (chunk : bytes) : conn :=
  match c_status c with
  | Open => let b := c_buf c ++ chunk in drain (S (length b)) b (c_frames c)
  | _ => c
  end.

Definition receive_stream (chunks : list bytes) : conn := fold_left feed chunks conn0.
