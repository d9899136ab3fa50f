(** C03-C08, C54-C56: TCPCLv4 (models: TcpclWire.v, TcpclSession.v, TcpclPair.v,
    TcpclCancel.v). *)
From Verif Require Import Bytes TcpclWire TcpclWireProofs TcpclSession TcpclSessionProofs
  TcpclPair TcpclPairProofs TcpclCancel TcpclExtraProofs.
From stdpp Require Import prelude.
From Coq Require Import NArith Lia Sorting.Sorted.
Open Scope N_scope.

(** ** C03 *)
(** [wf_packet]: all integer fields fit their wire width, the announced data
    length is the length of the data, node id is UTF-8, and only a START
    segment carries extensions.  Contact headers are separate, below. *)
Theorem C03_tcpcl_message_roundtrip : forall utf8_lossy p rest,
  wf_packet utf8_lossy p ->
  read utf8_lossy (write p ++ rest) = ROk p rest.
Proof. exact read_write. Qed.
Print Assumptions C03_tcpcl_message_roundtrip.

(** As long as a message is incomplete the reader waits. *)
Theorem C03_tcpcl_incomplete_waits : forall utf8_lossy p pre suf,
  wf_packet utf8_lossy p -> write p = pre ++ suf -> suf <> [] ->
  read utf8_lossy pre = RWait.
Proof. exact read_prefix. Qed.
Print Assumptions C03_tcpcl_incomplete_waits.

Theorem C03_tcpcl_contact_header : forall t rest,
  receive_contact_header (write (PContactHeader t) ++ rest) = ROk t rest.
Proof. exact contact_header_roundtrip. Qed.
Print Assumptions C03_tcpcl_contact_header.
(** Nothing else passes for a contact header: only "dtn!", version 4, a flag
    byte (of which bit 0 counts). *)
Theorem C03_tcpcl_contact_header_only : forall s t rest,
  receive_contact_header s = ROk t rest ->
  exists fl, s = [100; 116; 110; 33; 4; fl] ++ rest /\ t = N.testbit fl 0.
Proof. exact (contact_header_only id). Qed.
Print Assumptions C03_tcpcl_contact_header_only.

Example C03_case : wf_packet (fun b => b)
  (PXferSeg (XferSeg (SegFlags false true) 77 3 [9; 8; 7] [ExtItem true [1; 2]; ExtItem false []])).
Proof. cbn. unfold wf_ext. cbn. repeat split; try done. repeat constructor. Qed.

(** ** C04 *)
(** What a list of segments has to look like to carry [data] in pieces of at
    most [mru] bytes. *)
Definition well_segmented (segs : list xfer_seg) (start : bool) (mru tid : N) (data : bytes) : Prop :=
  concat (map xs_buf segs) = data /\
  (forall s, s ∈ segs -> 0 < blen (xs_buf s) <= mru /\ xs_len s = blen (xs_buf s) /\ xs_tid s = tid /\ xs_ext s = []) /\
  (forall i s, segs !! i = Some s ->
     f_start (xs_flags s) = start && bool_decide (i = 0%nat) /\
     f_end (xs_flags s) = bool_decide (i = length segs - 1)%nat).

Lemma well_segmented_carries segs start mru tid data :
  well_segmented segs start mru tid data <-> carries segs start mru tid data.
Proof.
  split.
  - intros (H1 & H2 & H3). split; [done|by apply Forall_forall| |].
    + intros i s Hi. by apply H3.
    + intros i s Hi. destruct (H3 i s Hi) as [_ ->]. apply bool_decide_ext. apply lookup_lt_Some in Hi. lia.
  - intros [H1 H2 H3 H4]. split; [done|]. split; [by apply Forall_forall|]. intros i s Hi. split; [by apply H3|].
    rewrite (H4 i s Hi). apply bool_decide_ext. apply lookup_lt_Some in Hi. lia.
Qed.

(** A bundle submitted to an idle session leaves as such a segment list, the
    first marked START and only the last END. *)
Theorem C04_tcpcl_segmentation : forall parse_id mru s data h resp,
  0 < mru -> data <> [] -> s_send s = SIdle -> is_terminated s = false ->
  exists segs,
    snd (step parse_id false mru s (EvSubmit data h resp)) = map (fun d => EMsg (PXferSeg d)) segs /\
    well_segmented segs true mru (s_last_tid s + 1) data.
Proof.
  intros parse_id mru s data h resp Hm Hd Hs Ht.
  exists (segments false mru (s_last_tid s + 1) data). split.
  - unfold step. rewrite Ht, Hs. cbn [fst snd]. unfold send, send_bundle.
    destruct (mru =? 0) eqn:E; [apply N.eqb_eq in E; lia|].
    cbn [s_last_tid]. rewrite bool_decide_eq_false_2; [done|]. by rewrite segments_nil.
  - apply well_segmented_carries. exact (segments_carries false mru _ data Hm).
Qed.
Print Assumptions C04_tcpcl_segmentation.

(** With refusal of known bundles enabled the data follows the request, after
    the acknowledgement. *)
Theorem C04_tcpcl_segmentation_after_request : forall parse_id mru s data h has resp f len,
  0 < mru -> data <> [] -> s_send s = TransferRequest data h -> is_terminated s = false ->
  exists segs,
    snd (step parse_id true mru s (EvPacket (PXferAck f (s_last_tid s) len) has resp)) = map (fun d => EMsg (PXferSeg d)) segs /\
    well_segmented segs false mru (s_last_tid s) data.
Proof.
  intros parse_id mru s data h has resp f len Hm Hd Hs Ht.
  exists (segments true mru (s_last_tid s) data). split.
  - unfold step. rewrite Ht. cbn [receive]. rewrite Hs, N.eqb_refl. cbn [negb]. unfold send_bundle.
    destruct (mru =? 0) eqn:E; [apply N.eqb_eq in E; lia|].
    rewrite bool_decide_eq_false_2; [done|]. by rewrite segments_nil.
  - apply well_segmented_carries. exact (segments_carries true mru _ data Hm).
Qed.
Print Assumptions C04_tcpcl_segmentation_after_request.

(** A session that is not in the middle of a reception hands exactly the
    original bytes on, after the last segment, and acknowledges the cumulative
    length of every segment ([acks]). *)
Theorem C04_tcpcl_reassembly : forall parse_id refuse mru segs s tid data m,
  s_recv s = RIdle -> is_terminated s = false ->
  well_segmented segs true m tid data -> data <> [] ->
  exists s',
    run parse_id refuse mru s (deliver_segs segs) =
      (s', acks tid 0 (map xs_buf segs) ++ process_bundle parse_id data tid) /\
    s_recv s' = RIdle /\ s_send s' = s_send s.
Proof.
  intros parse_id refuse mru segs s tid data m Hr Ht Hw Hd. apply well_segmented_carries in Hw.
  destruct (receive_segments parse_id refuse mru segs s tid data m Hr) as (s' & H1 & H2 & H3 & _); [|done|done|].
  - unfold alive, is_terminated in *. rewrite Hr in *. split; [done|]. by destruct (s_send s).
  - by exists s'.
Qed.
Print Assumptions C04_tcpcl_reassembly.

(** the rest of a transfer whose START was acknowledged *)
Theorem C04_tcpcl_reassembly_after_request : forall parse_id refuse mru segs s tid data m,
  s_recv s = Receiving [] tid -> is_terminated s = false ->
  well_segmented segs false m tid data -> data <> [] ->
  exists s',
    run parse_id refuse mru s (deliver_segs segs) =
      (s', acks tid 0 (map xs_buf segs) ++ process_bundle parse_id data tid) /\
    s_recv s' = RIdle /\ s_send s' = s_send s.
Proof.
  intros parse_id refuse mru segs s tid data m Hr Ht Hw Hd. apply well_segmented_carries in Hw.
  destruct Hw as [H1 H2 H3 H4].
  destruct (receive_rest parse_id refuse mru segs s [] tid Hr) as (s' & Hx & Hy & Hz & _).
  - unfold alive, is_terminated in *. rewrite Hr in *. split; [done|]. by destruct (s_send s).
  - intros ->. by subst.
  - split; [|done]. intros x Hx. rewrite Forall_forall in H2. destruct (H2 x Hx) as (_ & _ & Ht' & _).
    split; [|done]. apply elem_of_list_lookup in Hx as [i Hi]. by rewrite (H3 i x Hi).
  - exists s'. split; [|done]. cbn [app] in Hx. rewrite H1 in Hx. exact Hx.
Qed.
Print Assumptions C04_tcpcl_reassembly_after_request.

(** Ten bytes in pieces of four. *)
Example C04_case : exists segs,
  length segs = 3%nat /\ well_segmented segs true 4 1 [1;2;3;4;5;6;7;8;9;10].
Proof.
  exists (segments false 4 1 [1;2;3;4;5;6;7;8;9;10]). split; [done|].
  apply well_segmented_carries. by apply (segments_carries false).
Qed.

(** ** C05 *)
(** [sys_run]: two sessions, any interleaving of deliveries, submissions,
    timeouts, queue closings and connection failures.  When side [x] reports
    success for handle [h], the peer has received exactly the bytes submitted
    under [h] (and handed them to bundle processing if they are a bundle), or
    both sides refuse known bundles and the peer's store contained the bundle
    when it was asked. *)
Theorem C05_tcpcl_success_means_received : forall parse_id data_of refuse mru es x h,
  EVerdict h Successful ∈ n_log (get (sys_run parse_id data_of refuse mru es) x) ->
  let peer := get (sys_run parse_id data_of refuse mru es) (other x) in
  EProcess (data_of h) ∈ n_log peer \/
  (parse_id (data_of h) = None /\ EBroken (data_of h) ∈ n_log peer) \/
  (refuse x = true /\ refuse (other x) = true /\
   exists id has, parse_id (data_of h) = Some id /\ has ∈ n_stores peer /\ has id = true).
Proof.
  intros parse_id data_of refuse mru es x h H. cbv zeta.
  destruct (success_means_received parse_id data_of refuse mru es x h H) as [[Hr|Hr]|Hr]; auto.
Qed.
Print Assumptions C05_tcpcl_success_means_received.

(** A complete exchange: submission at A, three segments, three
    acknowledgements, success. *)
Definition c05_run := sys_run (fun b => Some b) (fun _ => [1;2;3;4;5]) (fun _ => false) (fun _ => 2)
  ([Submit A 7 true] ++ replicate 3 (Deliver B (fun _ => false) true) ++ replicate 3 (Deliver A (fun _ => false) true)).
Example C05_case :
  EVerdict 7 Successful ∈ n_log (get c05_run A) /\ EProcess [1;2;3;4;5] ∈ n_log (get c05_run B).
Proof.
  assert (HA : n_log (get c05_run A) =
     map (fun d => EMsg (PXferSeg d)) (segments false 2 1 [1;2;3;4;5]) ++ [EVerdict 7 Successful]) by (vm_compute; reflexivity).
  assert (HB : n_log (get c05_run B) =
     acks 1 0 [[1;2];[3;4];[5]] ++ [EProcess [1;2;3;4;5]]) by (vm_compute; reflexivity).
  rewrite HA, HB. split; apply elem_of_app; right; left.
Qed.

(** ** C06 *)
(** [accepted]: handles of the submissions the session took, in order. *)
Theorem C06_tcpcl_orderly : forall parse_id refuse mru es,
  let taken := accepted parse_id refuse mru session0 es in
  let out := snd (run parse_id refuse mru session0 es) in
  let verdicts := omap verdict_of out in
  let segs := omap sent_of out in
  (exists pending, taken = verdicts ++ pending /\ (length pending <= 1)%nat) /\
  StronglySorted N.le (map xs_tid segs) /\
  StronglySorted N.lt (map xs_tid (filter (fun d => f_start (xs_flags d) = true) segs)).
Proof.
  intros parse_id refuse mru es. cbv zeta.
  destruct (session_orderly parse_id refuse mru es) as [[H1 H2 H3 _] _]. done.
Qed.
Print Assumptions C06_tcpcl_orderly.

(** As long as the session lives, the only unanswered submission is the one
    in flight. *)
Theorem C06_tcpcl_no_verdict_lost : forall parse_id refuse mru es,
  is_terminated (fst (run parse_id refuse mru session0 es)) = false ->
  s_send (fst (run parse_id refuse mru session0 es)) = SIdle ->
  accepted parse_id refuse mru session0 es = omap verdict_of (snd (run parse_id refuse mru session0 es)).
Proof.
  intros parse_id refuse mru es Ht Hs.
  destruct (session_orderly parse_id refuse mru es) as [_ H]. rewrite (H Ht).
  unfold inflight. rewrite Hs. by rewrite app_nil_r.
Qed.
Print Assumptions C06_tcpcl_no_verdict_lost.

(** Two transfers, the second submitted while the first is in flight is not
    taken. *)
Example C06_case :
  let es := [EvSubmit [1;2;3] 1 true; EvSubmit [4] 2 true; EvPacket (PXferAck no_flags 1 2) (fun _ => false) true;
             EvPacket (PXferAck no_flags 1 3) (fun _ => false) true; EvSubmit [4] 3 true] in
  accepted (fun b => Some b) false 2 session0 es = [1; 3]%nat /\
  omap verdict_of (snd (run (fun b => Some b) false 2 session0 es)) = [1]%nat.
Proof. vm_compute. split; reflexivity. Qed.

(** ** C07 *)
(** [spliced received handed_on]: the byte strings handed on correspond, in
    order, to disjoint consecutive runs of received segments; each run starts
    with its only START, ends with its only END, has one transfer id, and the
    byte string is the concatenation of its data. *)
Theorem C07_tcpcl_no_splicing : forall parse_id refuse mru es,
  spliced (omap seg_of es) (omap done_of (snd (run parse_id refuse mru session0 es))).
Proof. exact no_splicing. Qed.
Print Assumptions C07_tcpcl_no_splicing.

Definition ex_seg (e s : bool) (tid : N) (b : bytes) : event :=
  EvPacket (PXferSeg (XferSeg (SegFlags e s) tid (blen b) b [])) (fun _ => false) true.
(** a reader's view of one element of [spliced] *)
Theorem C07_tcpcl_spliced_unfold : forall received b bs,
  spliced received (b :: bs) ->
  exists gap run rest tid, received = gap ++ run ++ rest /\ spliced rest bs /\
    run <> [] /\ concat (map xs_buf run) = b /\ (forall s, s ∈ run -> xs_tid s = tid) /\
    (forall i s, run !! i = Some s ->
       (f_start (xs_flags s) = true <-> i = 0%nat) /\ (f_end (xs_flags s) = true <-> S i = length run)).
Proof.
  intros received b bs H. inversion H as [|gap run rest buf bufs [[tid [H1 H2 H3 H4]] He] Hs]; subst.
  exists gap, run, rest, tid. split; [done|]. split; [done|]. split; [done|]. split; [done|]. split; [by apply Forall_forall|].
  intros i s Hi. rewrite (H3 i s Hi), (He i s Hi), !bool_decide_eq_true. done.
Qed.
Print Assumptions C07_tcpcl_spliced_unfold.
Example C07_case :
  omap done_of (snd (run (fun b => Some b) false 10 session0
    [ex_seg false true 4 [1;2]; ex_seg true false 4 [3]; ex_seg true true 5 [9]; ex_seg false true 6 [1]; ex_seg true false 7 [2]]))
  = [[1;2;3]; [9]].
Proof. reflexivity. Qed.

(** ** C08 *)
(** Two nodes announce [a] and [b]; [negotiate local remote] is what a node
    keeps as (local, remote) parameters. *)
Theorem C08_tcpcl_keepalive : forall a b,
  si_keepalive (snd (negotiate a b)) = N.min (si_keepalive a) (si_keepalive b) /\
  si_keepalive (snd (negotiate b a)) = N.min (si_keepalive a) (si_keepalive b) /\
  si_keepalive (fst (negotiate a b)) = si_keepalive (snd (negotiate a b)).
Proof. intros a b. cbn. split; [done|]. split; [by rewrite N.min_comm|done]. Qed.
Print Assumptions C08_tcpcl_keepalive.

(** Whatever happens on the session, no segment is larger than the peer
    announced. *)
Theorem C08_tcpcl_segment_size : forall parse_id refuse a b es d,
  EMsg (PXferSeg d) ∈ snd (run parse_id refuse (si_segment_mru (snd (negotiate a b))) session0 es) ->
  blen (xs_buf d) <= si_segment_mru b.
Proof.
  intros parse_id refuse a b es d Hd. cbn [negotiate snd si_segment_mru] in Hd.
  pose proof (segments_bounded parse_id refuse (si_segment_mru b) session0 es) as H.
  unfold small in H. rewrite Forall_forall in H. apply H. apply elem_of_list_omap. by exists (EMsg (PXferSeg d)).
Qed.
Print Assumptions C08_tcpcl_segment_size.
Example C08_case : exists d,
  EMsg (PXferSeg d) ∈ snd (run (fun b => Some b) false (si_segment_mru (snd (negotiate (local_params [1]) (SessInit 10 3 64 [2])))) session0
     [EvSubmit [1;2;3;4;5] 0 true]) /\ xs_buf d = [4;5].
Proof. eexists. split; [right; left|reflexivity]. Qed.

(** ** C54 *)
(** The full property: of a START segment whose extension list announces [n]
    bytes the reader takes exactly these [n] bytes (or reports an error), and
    what follows is left alone. *)
Definition C54_full : Prop := forall f body rest,
  f_start f = true -> bytes_ok body -> blen body < 2^32 ->
  (exists l, read_ext_block f (be 4 (blen body) ++ body ++ rest) = ROk l rest) \/
  read_ext_block f (be 4 (blen body) ++ body ++ rest) = RErr.
(** An item that claims more bytes than the list has makes the remaining
    length wrap around; the reader then swallows what follows. *)
Theorem C54_tcpcl_extension_list_refuted : ~ C54_full.
Proof.
  intros H. destruct (H (SegFlags false true) [0;0;1;0;1] (replicate 60 4) eq_refl) as [[l Hl]|Hl].
  - repeat constructor.
  - reflexivity.
  - vm_compute in Hl. discriminate Hl.
  - vm_compute in Hl. discriminate Hl.
Qed.
Print Assumptions C54_tcpcl_extension_list_refuted.
(** It holds when the items fit the announced length: [items] are (flags,
    type, data) of any type, [tail] is shorter than an item header. *)
Theorem C54_tcpcl_extension_list_partial : forall f items tail rest,
  f_start f = true -> Forall raw_ok items -> blen tail < 5 ->
  blen (concat (map enc_item items) ++ tail) < 2^32 ->
  let body := concat (map enc_item items) ++ tail in
  read_ext_block f (be 4 (blen body) ++ body ++ rest) = ROk (known items) rest.
Proof. exact ext_block_items. Qed.
Print Assumptions C54_tcpcl_extension_list_partial.
Example C54_case : Forall raw_ok [(0, 1, [65;66]); (1, 77, []); (1, 1, [67])].
Proof. repeat constructor. Qed.

(** ** C55 *)
(** The full property: whatever local events interleave with the arrival of
    the bytes, all messages the peer wrote are received. *)
Definition C55_full : Prop := forall utf8_lossy ps es,
  Forall (wf_packet utf8_lossy) ps -> arrived es = concat (map write ps) ->
  r_out (io_run utf8_lossy es) = ps.
(** The first nine bytes of an acknowledgement arrive, the timer or a
    submission wins the select, the rest arrives. *)
Theorem C55_tcpcl_cancelled_read_refuted : ~ C55_full.
Proof.
  intros H.
  specialize (H (fun b => b) [PXferAck no_flags 1 2]
    [Arrive (take 9 (write (PXferAck no_flags 1 2))); OtherBranch; Arrive (drop 9 (write (PXferAck no_flags 1 2)))]).
  assert (Hr : r_out (io_run (fun b => b)
    [Arrive (take 9 (write (PXferAck no_flags 1 2))); OtherBranch; Arrive (drop 9 (write (PXferAck no_flags 1 2)))]) = [])
    by (vm_compute; reflexivity).
  rewrite Hr in H. discriminate H; [repeat constructor|vm_compute; reflexivity].
Qed.
Print Assumptions C55_tcpcl_cancelled_read_refuted.
(** It holds when other events only win between two messages. *)
Theorem C55_tcpcl_cancelled_read_partial : forall utf8_lossy ps es,
  Forall (wf_packet utf8_lossy) ps -> arrived es = concat (map write ps) ->
  (forall es1 es2, es = es1 ++ OtherBranch :: es2 ->
     exists k, arrived es1 = concat (map write (take k ps))) ->
  r_out (io_run utf8_lossy es) = ps /\ r_broken (io_run utf8_lossy es) = false.
Proof. intros u ps es H1 H2 H3. by rewrite (read_uninterrupted u ps es H1 H2 H3). Qed.
Print Assumptions C55_tcpcl_cancelled_read_partial.
Example C55_case :
  let es := [Arrive [4; 3]; Arrive (0 :: be 8 9); OtherBranch; Arrive [4]] in
  let ps := [PKeepAlive; PXferRefuse RUnknown 9; PKeepAlive] in
  arrived es = concat (map write ps) /\
  (forall es1 es2, es = es1 ++ OtherBranch :: es2 -> exists k, arrived es1 = concat (map write (take k ps))).
Proof.
  split; [vm_compute; reflexivity|]. intros es1 es2 H.
  destruct es1 as [|e1 [|e2 [|e3 es1]]]; try discriminate H.
  - injection H as H1 H2 H3. subst e1 e2. exists 2%nat. vm_compute. reflexivity.
  - injection H as _ _ _ H. destruct es1 as [|? [|? ?]]; discriminate H.
Qed.

(** ** C56 *)
(** The full property: a session is ended for idleness only if this side had
    sent a keepalive before the interval that just expired. *)
Definition C56_full : Prop := forall parse_id refuse mru es,
  EMsg (PSessTerm false TIdleTimeout) ∈ snd (step parse_id refuse mru (fst (run parse_id refuse mru session0 es)) EvTimeout) ->
  EMsg PKeepAlive ∈ snd (run parse_id refuse mru session0 es).
Theorem C56_tcpcl_idle_refuted : ~ C56_full.
Proof.
  intros H. specialize (H (fun b => Some b) false 10 []). cbn in H.
  apply (not_elem_of_nil (EMsg PKeepAlive)). apply H. right. left.
Qed.
Print Assumptions C56_tcpcl_idle_refuted.
(** What holds: a session that has just heard a keepalive is never ended by
    the timer alone. *)
Theorem C56_tcpcl_idle_partial : forall parse_id refuse mru es has resp n,
  is_terminated (fst (run parse_id refuse mru session0 es)) = false ->
  is_terminated (fst (run parse_id refuse mru (fst (run parse_id refuse mru session0 es))
     (EvPacket PKeepAlive has resp :: replicate n EvTimeout))) = false.
Proof. intros. by apply timeouts_after_keepalive. Qed.
Print Assumptions C56_tcpcl_idle_partial.
(** And keepalives are answered: if a keepalive arrives then either this side
    answers it, or it has already sent one since (or in answer to) the last
    message it received: the events after that are no messages. *)
Theorem C56_tcpcl_keepalive_answered : forall parse_id refuse mru es has resp,
  is_terminated (fst (run parse_id refuse mru session0 es)) = false ->
  EMsg PKeepAlive ∈ snd (step parse_id refuse mru (fst (run parse_id refuse mru session0 es)) (EvPacket PKeepAlive has resp)) \/
  exists es1 x es2, es = es1 ++ x :: es2 /\
    Forall (fun e => match e with EvPacket _ _ _ => False | _ => True end) es2 /\
    EMsg PKeepAlive ∈ snd (run parse_id refuse mru (fst (run parse_id refuse mru session0 es1)) (x :: es2)).
Proof. exact keepalive_answered. Qed.
Print Assumptions C56_tcpcl_keepalive_answered.
Example C56_case :
  is_terminated (fst (run (fun b => Some b) false 10 session0 [EvSubmit [1] 0 true])) = false.
Proof. reflexivity. Qed.
