(** C01, C02: MTCP framing (model: Mtcp.v, proofs: MtcpProofs.v). *)
From Verif Require Import Bytes Mtcp MtcpProofs.
From stdpp Require Import prelude.
From Coq Require Import NArith Lia.
Open Scope N_scope.

(** A bundle encoding that MTCP can carry: it ends in the CBOR break byte, the
    framed form has at least ten bytes and its size fits a 64-bit length. *)
Definition bundle_encoding (p : bytes) : Prop :=
  last p = Some 255 /\ 9 <= blen p /\ blen p < 2^64 - 9.

Lemma bundle_encoding_sendable p : bundle_encoding p -> sendable p.
Proof.
  intros (H1 & H2 & H3). split; [done|]. unfold usize_max1. split; [|lia].
  unfold mtcp_encode. rewrite blen_app. unfold cbor_bytes_header.
  repeat case_match; unfold blen in *; cbn [length]; lia.
Qed.

(** C01: whatever way TCP cuts the written stream into reads, the receiver
    gets the same encodings in the same order, with an empty buffer left. *)
Theorem C01_mtcp_roundtrip : forall (ps chunks : list bytes),
  Forall bundle_encoding ps ->
  concat chunks = mtcp_stream ps ->
  receive_stream chunks = Conn [] ps Open.
Proof.
  intros ps chunks Hps. apply mtcp_roundtrip.
  eapply Forall_impl; [exact Hps|]. exact bundle_encoding_sendable.
Qed.
Print Assumptions C01_mtcp_roundtrip.

(** Two bundles of 12 and 300 bytes, cut inside the first header and inside
    the second frame. *)
Definition ex_p1 : bytes := replicate 11 7 ++ [255].
Definition ex_p2 : bytes := replicate 299 9 ++ [255].
Example C01_case :
  Forall bundle_encoding [ex_p1; ex_p2] /\
  concat [take 5 (mtcp_stream [ex_p1; ex_p2]); take 9 (drop 5 (mtcp_stream [ex_p1; ex_p2]));
          drop 14 (mtcp_stream [ex_p1; ex_p2])] = mtcp_stream [ex_p1; ex_p2].
Proof.
  split; [|vm_compute; reflexivity].
  repeat constructor; vm_compute; congruence.
Qed.

(** C02, part 1: frames and final status depend on the bytes only. *)
Theorem C02_mtcp_chunking_irrelevant : forall chunks1 chunks2 : list bytes,
  concat chunks1 = concat chunks2 ->
  c_frames (receive_stream chunks1) = c_frames (receive_stream chunks2) /\
  c_status (receive_stream chunks1) = c_status (receive_stream chunks2).
Proof. exact mtcp_chunking. Qed.
Print Assumptions C02_mtcp_chunking_irrelevant.

(** C02, part 2: no panic, and the frames are consecutive announced pieces of
    the stream. *)
Theorem C02_mtcp_hostile : forall chunks : list bytes,
  bytes_ok (concat chunks) ->
  c_status (receive_stream chunks) <> Panicked /\
  exists rest, framed (concat chunks) (c_frames (receive_stream chunks)) rest.
Proof. exact mtcp_hostile. Qed.
Print Assumptions C02_mtcp_hostile.

(** C02, part 3: what follows does no harm to frames that were complete
    before it. *)
Theorem C02_mtcp_good_frames_kept : forall (ps : list bytes) (rest : bytes) (chunks : list bytes),
  Forall bundle_encoding ps -> concat chunks = mtcp_stream ps ++ rest ->
  exists more, c_frames (receive_stream chunks) = ps ++ more.
Proof.
  intros ps rest chunks Hps E. destruct (receive_stream_D chunks) as [-> _]. rewrite E.
  assert (HD : D (mtcp_stream ps) = Conn [] ps Open).
  { apply D_stream. eapply Forall_impl; [exact Hps|]. exact bundle_encoding_sendable. }
  rewrite D_app_open; rewrite HD; [|done]. cbn [c_frames]. eauto.
Qed.
Print Assumptions C02_mtcp_good_frames_kept.

(** A stream with one good frame followed by garbage and by a length that
    overflows usize: the good frame comes out, then the connection fails. *)
Example C02_case :
  let s := mtcp_encode ex_p1 ++ [91; 255; 255; 255; 255; 255; 255; 255; 255; 0; 0; 0] in
  bytes_ok s /\ receive_stream [s] = Conn (drop 13 s) [ex_p1] Failed.
Proof. split; [repeat constructor; done|vm_compute; reflexivity]. Qed.

(** The length bound is needed: a frame shorter than ten bytes stays in the
    buffer until more bytes arrive, although it is complete. *)
Example C01_short_frame_waits :
  receive_stream [mtcp_encode [1; 2; 255]] = Conn (mtcp_encode [1; 2; 255]) [] Open.
Proof. vm_compute. reflexivity. Qed.
