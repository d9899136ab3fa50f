(** C128-C130: the external convergence layer program for MTCP (model:
    EclaMtcp.v), together with the node it serves (Ecla.v).
    From EclaMtcpProofs.v: [bundles_of], [chunks_of] what belongs to a connection,
    [leading] the bundles up to the first frame that is none, [given] the bundles
    the node hands over for an address, [sent_to] those of a log on connections to
    an address, [smooth] nothing fails. *)
From stdpp Require Import prelude strings pretty gmap.
From Coq Require Import NArith Lia.
From Verif Require Import Bytes Cbor Core Peers Routing Beacon Ecla EclaProofs EclaInv EclaLive Props_Ecla Props_EclaIn Mtcp MtcpProofs Props_Mtcp EclaMtcp EclaMtcpProofs.
Open Scope N_scope.

(** ** C128 *)
(** the bundles the program read from its connections, in order *)
Definition read_in (st : prog) : list bundle := map snd (g_in_log st).
(** those that were not yet written to the node *)
Definition waiting (dec : list N -> option bundle) (st : prog) : list bundle := omap dec (omap fwd_data (g_cmd st ++ g_ctx st)).
(** what the node got over connection [i] *)
Definition packets_of (evs : list event) (i : nat) : list packet :=
  omap (fun e => match e with EPacket j _ p => if bool_decide (j = i) then Some p else None | _ => None end) evs.
(** What the program reads from a connection are the bundles that came over it up
    to the first frame that is no bundle, in order; all of them once the task of
    the connection has nothing left to do. *)
Theorem C128_read : forall dec enc port es st c, grun dec enc port es prog0 = Some st ->
  let sent := leading dec (c_frames (receive_stream (chunks_of es c))) in
  bundles_of c (g_in_log st) `prefix_of` sent /\
  (gstep dec enc port (GHandle c) st = None -> (length (g_ctx st) < 100)%nat -> bundles_of c (g_in_log st) = sent).
Proof.
  intros dec enc port es st c E. cbn zeta. pose proof (iinv_run _ _ _ _ _ E) as Hi. destruct (g_in st !! c) as [i|] eqn:Ei.
  - destruct (i_bs _ _ _ Hi c i Ei) as [Hle Hm]. rewrite <- (i_dec _ _ _ Hi c i Ei). split.
    + rewrite <- (take_drop (ic_done i) (c_frames (ic_dec i))), (leading_mapM _ _ _ _ Hm). by apply prefix_app_r.
    + intros Hn Hlt. destruct (ic_over i) eqn:Eo; [by eapply (i_over _ _ _ Hi)|].
      destruct st as [ins ctx cmd up s rx tbl outs il ol]. cbn [g_in g_ctx g_in_log] in *. unfold gstep in Hn. rewrite Ei, Eo in Hn.
      destruct (c_frames (ic_dec i) !! ic_done i) as [f|] eqn:Ef.
      * exfalso. destruct (dec f); [|done]. assert ((length ctx <? 100)%nat = true) as HH by (by apply Nat.ltb_lt). by rewrite HH in Hn.
      * apply lookup_ge_None in Ef. rewrite take_ge in Hm by done. rewrite <- (app_nil_r (c_frames _)), (leading_mapM _ _ _ _ Hm). cbn. by rewrite app_nil_r.
  - destruct (i_none _ _ _ Hi c Ei) as [-> ->]. done.
Qed.
Print Assumptions C128_read.

(** A node with the program connected as [i]: what the program read and is not on
    its way to the node any more is what the node took in. *)
Definition served dec enc port read_block own_block self nodeid connectors (builtin : list layer) ps (es : list pev) (st : prog) (evs : list event) (s : ecla) (i : nat) : Prop :=
  grun dec enc port es prog0 = Some st /\
  configured builtin /\ runs dec read_block own_block self nodeid connectors (start builtin ps) evs s /\
  no_panic s /\ fresh_addresses dec read_block own_block self nodeid connectors (start builtin ps) evs /\
  packets_of evs i = g_sent st /\ (exists n, registered s i n) /\
  (forall data b, dec data = Some b -> dec (enc b) = Some b).
Definition C128_full : Prop := forall dec enc port read_block own_block self nodeid connectors builtin ps es st evs s i,
  served dec enc port read_block own_block self nodeid connectors builtin ps es st evs s i ->
  read_in st = taken s i ++ waiting dec st.

Section c128.
Context (dec : list N -> option bundle) (enc : bundle -> list N) (port : N)
  (read_block : list N -> option (list (string * option N) * list (N * string)))
  (own_block : list layer -> option (list N))
  (self : eid) (nodeid : string) (connectors : list kind).
Notation runs := (runs dec read_block own_block self nodeid connectors).
Notation step := (step dec read_block own_block self nodeid connectors).
Lemma acc_register e s s' i n : e_bad s' = [] -> step e s = Some s' -> ~ acc s i n -> acc s' i n -> exists now b p, e = EPacket i now (PRegister n b p).
Proof.
  intros Hb Hs Hno Ha. pose proof (step_fine _ _ _ _ _ _ _ _ _ Hs Hb) as Hf.
  assert (Hsame : e_log s' <> e_log s) by (intros E; apply Hno; unfold acc in *; by rewrite <- E).
  assert (Hquiet : ~ quiet s s') by (intros Hq; apply Hno; by apply (quiet_acc _ _ i n Hq)).
  destruct Hf as [k ip pt a m Hadr Hn Hg|j k a g Hj|j now p k a g s1 Hj Hp|e s1 Hx Hq|j t Hj|j a g Hj|j a g Hj|j k a g m k' Hj Hm|j k a g Hj Hm|j k a g Hj|j a g Hj]; try done.
  inversion Hp as [p0 s2 Hq|name bb pt kk nn s2 Hm Hnm Hnot Hq|x y z data bn nn kk Hm Hd|ee addr blk clas sv nn kk m u Hm Hr Hadd]; subst; [done| | |].
  - apply (quiet_acc _ _ i n Hq) in Ha. unfold acc in Ha. cbn in Ha. apply elem_of_app in Ha as [Ha|Ha%elem_of_list_singleton]; [done|].
    injection Ha as <- <-. eauto.
  - exfalso. apply Hno. unfold acc in *. cbn in Ha. by apply elem_of_app in Ha as [Ha|Ha%elem_of_list_singleton].
  - exfalso. apply Hno. unfold acc in *. cbn in Ha. by apply elem_of_app in Ha as [Ha|Ha%elem_of_list_singleton].
Qed.
(** the step at which a connection is registered *)
Lemma first_registered s0 evs s i n : e_log s0 = [] -> runs s0 evs s -> acc s i n ->
  exists evs1 e evs2 s1 s2 m, evs = evs1 ++ e :: evs2 /\ runs s0 evs1 s1 /\ step e s1 = Some s2 /\ (forall m, ~ acc s1 i m) /\ acc s2 i m.
Proof.
  intros H0 Hr. revert n. induction Hr as [|evs e s1 s2 Hr IH Hs]; intros n Ha; [unfold acc in Ha; rewrite H0 in Ha; by apply elem_of_nil in Ha|].
  destruct (decide (Exists (fun o => match o with OAccepted j _ => bool_decide (j = i) | _ => false end = true) (e_log s1))) as [He|He].
  { apply Exists_exists in He as (o & Ho & Hx). destruct o; try done. apply bool_decide_eq_true in Hx as ->. destruct (IH _ Ho) as (evs1 & e1 & evs2 & t1 & t2 & m & -> & H1 & H2 & H3 & H4).
    exists evs1, e1, (evs2 ++ [e]), t1, t2, m. split_and!; [by rewrite <- app_assoc|done..]. }
  exists evs, e, [], s1, s2, n. split_and!; try done. intros m Hm. apply He, Exists_exists. exists (OAccepted i m). split; [done|]. by apply bool_decide_eq_true.
Qed.
Lemma packets_of_app evs1 evs2 i : packets_of (evs1 ++ evs2) i = packets_of evs1 i ++ packets_of evs2 i.
Proof. apply omap_app. Qed.
Lemma forwarded_packets evs i : forwarded evs i = omap fwd_data (packets_of evs i).
Proof.
  unfold forwarded, packets_of. induction evs as [|e evs IH]; [done|]. cbn. destruct e as [| |j now p| | | | | | | | |]; try done.
  destruct p; case_bool_decide; cbn; by rewrite ?IH.
Qed.
Lemma all_dec (bs : list bundle) : Forall (fun b => dec (enc b) = Some b) bs -> omap dec (map enc bs) = bs.
Proof. induction 1 as [|b bs H1 H2 IH]; [done|]. cbn. by rewrite H1, IH. Qed.
(** Missing: bundles that the program read and moved to the channel of its
    websocket client before the websocket was open; they are written first. *)
Theorem C128_taken_in_partial : forall builtin ps es st evs s i,
  served dec enc port read_block own_block self nodeid connectors builtin ps es st evs s i ->
  (forall es1 es2, es = es1 ++ GUp :: es2 -> GRelay ∉ es1) ->
  read_in st = taken s i ++ waiting dec st.
Proof.
  intros builtin ps es st evs s i (Hg & Hb & Hr & Hp & Hf & Hpk & (n & Hreg) & Hde) Hfirst.
  destruct (first_registered (start builtin ps) _ _ i n eq_refl Hr Hreg) as (evs1 & e & evs2 & s1 & s2 & m & -> & Hr1 & Hs & Hno & Hacc).
  destruct (C127_taken_in dec read_block own_block self nodeid connectors builtin ps evs1 e evs2 s1 s2 s i m Hb Hr Hp Hf Hr1 Hs Hno Hacc) as [_ ->].
  assert (Hbad : e_bad s2 = []).
  { assert (Hgen : forall evs2 s, runs (start builtin ps) ((evs1 ++ [e]) ++ evs2) s -> e_bad s = [] -> e_bad s2 = []).
    { clear Hr Hp Hf Hpk Hreg evs2 s. induction evs2 as [|e2 evs2 IH] using rev_ind; intros s H Hp.
      - rewrite app_nil_r in H. assert (Hr2 : runs (start builtin ps) (evs1 ++ [e]) s2) by (by eapply runs_snoc).
        apply runs_exec in H. apply runs_exec in Hr2. congruence.
      - rewrite app_assoc in H. inversion H as [E|evs' e' s3 s' H3 Hs3 E1]; [by destruct (app_cons_not_nil _ _ _ E)|].
        apply app_inj_tail in E1 as [-> ->]. subst s'. pose proof (step_fine _ _ _ _ _ _ _ _ _ Hs3 Hp) as Hf3.
        apply (IH s3 H3). by rewrite <- (sfx_bad _ _ _ _ _ Hf3). }
    eapply (Hgen evs2 s); [by rewrite <- app_assoc|done]. }
  destruct (acc_register _ _ _ _ _ Hbad Hs (Hno m) Hacc) as (now & bb & pt & ->).
  rewrite packets_of_app in Hpk. change (EPacket i now (PRegister m bb pt) :: evs2) with ([EPacket i now (PRegister m bb pt)] ++ evs2) in Hpk. rewrite packets_of_app in Hpk.
  unfold packets_of at 2 in Hpk. cbn in Hpk. rewrite bool_decide_true in Hpk by done. cbn in Hpk.
  pose proof (shape_step _ _ _ _ _ Hg) as Hsh. pose proof (sent_data _ _ _ _ _ Hg) as Hdat. unfold queues in *. rewrite <- Hpk in Hsh, Hdat.
  destruct (g_up st); [|by destruct Hsh as [Hx _]; destruct (packets_of evs1 i)].
  destruct Hsh as (l1 & l2 & Hq & _ & Hl2 & Hl1). rewrite (Hl1 Hfirst) in Hq. cbn in Hq.
  assert (Hpe : packets_of evs1 i = []).
  { destruct (packets_of evs1 i) as [|p ps1]; [done|]. exfalso. cbn in Hq. injection Hq as -> Hq. rewrite <- Hq in Hl2.
    rewrite !Forall_app in Hl2. destruct Hl2 as [[_ Hl2] _]. inversion Hl2 as [|? ? Hx]. by destruct Hx. }
  rewrite Hpe in Hdat. rewrite omap_app in Hdat. cbn [app omap list_omap fwd_data] in Hdat.
  unfold read_in, waiting. rewrite forwarded_packets, <- omap_app. transitivity (omap dec (map enc (map snd (g_in_log st)))); [|f_equal; symmetry; exact Hdat]. symmetry. apply all_dec.
  apply Forall_forall. intros b Hin. apply elem_of_list_fmap in Hin as (x & -> & Hx). destruct x as [c x]. cbn.
  pose proof (iinv_run _ _ _ _ _ Hg) as Hi. destruct (g_in st !! c) as [ic|] eqn:Ei.
  - destruct (i_bs _ _ _ Hi c ic Ei) as [_ Hm]. apply mapM_Some in Hm.
    assert (Hxb : x ∈ bundles_of c (g_in_log st)). { apply elem_of_list_omap. exists (c, x). split; [done|]. cbn. by rewrite bool_decide_true. }
    apply elem_of_list_lookup in Hxb as [k Hk]. destruct (Forall2_lookup_r _ _ _ _ _ Hm Hk) as (f & _ & Hd). by eapply Hde.
  - destruct (i_none _ _ _ Hi c Ei) as [_ Hn]. assert (Hxb : x ∈ bundles_of c (g_in_log st)). { apply elem_of_list_omap. exists (c, x). split; [done|]. cbn. by rewrite bool_decide_true. }
    rewrite Hn in Hxb. by apply elem_of_nil in Hxb.
Qed.
End c128.
Print Assumptions C128_taken_in_partial.

(** A frame that is a bundle: [k], zeroes, and the break byte *)
Definition enc2 (b : bundle) : list N := b_seq b :: replicate 10 0 ++ [255].
Definition dec2 (d : list N) : option bundle := match d with k :: _ => Some (bundle_no k) | [] => None end.
Definition frame2 (k : N) : list N := mtcp_encode (enc2 (bundle_no k)).
Lemma dec_enc2 data b : dec2 data = Some b -> dec2 (enc2 b) = Some b.
Proof. destruct data as [|k data]; [done|]. by intros [= <-]. Qed.
Notation grun2 := (grun dec2 enc2 16162).
Notation exec2 := (exec dec2 rb ob me "dtn://node1/" [WS; TCP]).
Definition node2 (ps : list packet) : list event := [EOpen WS "" 0; EInit 0] ++ map (EPacket 0 6) ps.
Lemma no_tcp ps : fresh_addresses dec2 rb ob me "dtn://node1/" [WS; TCP] (start tcp0 ∅) (node2 ps).
Proof.
  intros evs1 ip port evs2 s3 Heq _. exfalso. assert (H : EOpen TCP ip port ∈ node2 ps) by (rewrite Heq; apply elem_of_app; right; left).
  unfold node2 in H. cbn in H. apply elem_of_cons in H as [H|H]; [done|]. apply elem_of_cons in H as [H|H]; [done|]. by apply elem_of_list_fmap in H as (? & ? & _).
Qed.
Lemma packets_node2 ps : packets_of (node2 ps) 0 = ps.
Proof. unfold packets_of, node2. cbn. induction ps as [|p ps IH]; [done|]. cbn. by rewrite IH. Qed.
Lemma served2 es st s : grun2 es prog0 = Some st -> exec2 (node2 (g_sent st)) (start tcp0 ∅) = Some s -> e_bad s = [] -> (exists n, registered s 0 n) ->
  served dec2 enc2 16162 rb ob me "dtn://node1/" [WS; TCP] tcp0 ∅ es st (node2 (g_sent st)) s 0.
Proof.
  intros H1 H2 H3 H4. split_and!; [done|by repeat constructor|by apply exec_runs|done|apply no_tcp|by rewrite packets_node2|done|apply dec_enc2].
Qed.
(** A bundle arrives before the websocket is open: the node gets it before the
    registration and drops it. *)
Definition too_early : list pev := [GAccept "10.0.0.9:5"; GChunk 0 (frame2 1); GHandle 0; GRelay; GUp; GWrite; GWrite].
Theorem C128_full_refuted : ~ C128_full.
Proof.
  intros H. destruct (grun2 too_early prog0) as [st|] eqn:E; [|by vm_compute in E].
  destruct (exec2 (node2 (g_sent st)) (start tcp0 ∅)) as [s|] eqn:Es; [|by vm_compute in E; injection E as <-; vm_compute in Es].
  assert (Hall : (st ← grun2 too_early prog0; s ← exec2 (node2 (g_sent st)) (start tcp0 ∅); Some (e_bad s, e_log s !! 0%nat, read_in st, taken s 0 ++ waiting dec2 st)) =
    Some ([], Some (OAccepted 0 "mtcp"), [bundle_no 1], [])) by by vm_compute.
  rewrite E in Hall. cbn [mbind option_bind] in Hall. rewrite Es in Hall. cbn [mbind option_bind] in Hall. injection Hall as H1 H2 H3 H4.
  specialize (H _ _ _ _ _ _ _ _ _ _ _ _ _ _ _ (served2 _ _ _ E Es H1 ltac:(exists "mtcp"; by eapply elem_of_list_lookup_2))).
  rewrite H3 in H. unfold read_in in *. rewrite H4 in H. done.
Qed.
Print Assumptions C128_full_refuted.
(** With the websocket open first, two bundles over two connections get there
    while a third one is still in a channel. *)
Definition in_time : list pev :=
  [GUp; GAccept "10.0.0.9:5"; GAccept "10.0.0.8:7"; GChunk 0 (frame2 1 ++ frame2 2); GHandle 0; GRelay; GChunk 1 (frame2 3); GHandle 1; GRelay; GWrite; GHandle 0; GWrite; GWrite].
Example C128_case : exists st s, served dec2 enc2 16162 rb ob me "dtn://node1/" [WS; TCP] tcp0 ∅ in_time st (node2 (g_sent st)) s 0 /\
  (forall es1 es2, in_time = es1 ++ GUp :: es2 -> GRelay ∉ es1) /\
  read_in st = [bundle_no 1; bundle_no 3; bundle_no 2] /\ taken s 0 = [bundle_no 1; bundle_no 3].
Proof.
  destruct (grun2 in_time prog0) as [st|] eqn:E; [|by vm_compute in E].
  destruct (exec2 (node2 (g_sent st)) (start tcp0 ∅)) as [s|] eqn:Es; [|by vm_compute in E; injection E as <-; vm_compute in Es].
  assert (Hall : (st ← grun2 in_time prog0; s ← exec2 (node2 (g_sent st)) (start tcp0 ∅); Some (e_bad s, e_log s !! 0%nat, read_in st, taken s 0)) =
    Some ([], Some (OAccepted 0 "mtcp"), [bundle_no 1; bundle_no 3; bundle_no 2], [bundle_no 1; bundle_no 3])) by by vm_compute.
  rewrite E in Hall. cbn [mbind option_bind] in Hall. rewrite Es in Hall. cbn [mbind option_bind] in Hall. injection Hall as H1 H2 H3 H4.
  exists st, s. split; [apply served2; try done; exists "mtcp"; by eapply elem_of_list_lookup_2|]. split; [|done].
  intros es1 es2 H. destruct es1 as [|e es1]; [by intros ?%elem_of_nil|]. exfalso. apply (f_equal tail) in H. cbn [tail app] in H.
  assert (Hin : GUp ∈ tail in_time) by (rewrite H; apply elem_of_app; right; left).
  revert Hin. cbn [tail in_time]. rewrite !elem_of_cons. intros Hin. repeat (destruct Hin as [Hin|Hin]; [done|]). by apply elem_of_nil in Hin.
Qed.

(** ** C129 *)
(** A bundle that the node hands over reaches the peer at most once, on one
    connection, in the order of the node.  On a connection that has not failed
    the peer gets what was written there and nothing else.  If nothing fails,
    every bundle for an address is written except those still queued. *)
Theorem C129_out : forall dec enc port es st,
  (forall data b, dec data = Some b -> bundle_encoding (enc b)) -> grun dec enc port es prog0 = Some st ->
  exists log : list (nat * bundle),
    (forall sid o chunks, g_out st !! sid = Some o -> concat chunks = o_bytes o ->
       map enc (bundles_of sid log) `prefix_of` c_frames (receive_stream chunks) /\
       (o_failed o = false -> receive_stream chunks = Mtcp.Conn [] (map enc (bundles_of sid log)) Open)) /\
    (forall d, sublist (sent_to st d log) (given dec d es)) /\
    (Forall smooth es -> forall d, given dec d es = sent_to st d log ++ omap (for_addr dec d) (g_rx st)) /\
    (Forall smooth es -> forall sid o, g_out st !! sid = Some o -> o_failed o = false).
Proof.
  intros dec enc port es st Henc E. pose proof (oinv_run _ _ _ _ _ E) as Hi. exists (g_out_log st). split_and!.
  - intros sid o chunks Ho Hc. destruct (v_bytes _ _ _ _ Hi sid o Ho) as (tail & Hb & Hf).
    assert (Hall : Forall bundle_encoding (map enc (bundles_of sid (g_out_log st)))).
    { apply Forall_forall. intros p Hp. apply elem_of_list_fmap in Hp as (b & -> & Hb'). apply elem_of_list_omap in Hb' as (x & Hx & Hxb). case_bool_decide; [|done]. injection Hxb as <-.
      destruct (v_log _ _ _ _ Hi x Hx) as [_ [data Hd]]. by eapply Henc. }
    split.
    + destruct (C02_mtcp_good_frames_kept _ tail chunks Hall) as [more ->]; [by rewrite Hc|]. by apply prefix_app_r.
    + intros Hfl. apply C01_mtcp_roundtrip; [done|]. by rewrite Hc, Hb, (Hf Hfl), app_nil_r.
  - intros d. destruct (v_given _ _ _ _ Hi d) as (took & -> & H & _). by apply sublist_inserts_r.
  - intros Hs d. destruct (v_given _ _ _ _ Hi d) as (took & -> & _ & H). by rewrite (H Hs).
  - apply (v_smooth _ _ _ _ Hi).
Qed.
Print Assumptions C129_out.
(** Two peers; a connection breaks, the next write fails on it, the bundle after
    that goes over a new connection. *)
Definition fwd2 (d : string) (k : N) : pev := GNode (PForward "n" d "x" (enc2 (bundle_no k))).
Definition broken : list pev := [GUp; fwd2 "a" 1; fwd2 "b" 2; fwd2 "a" 3; fwd2 "a" 4; fwd2 "a" 5; GTake true None; GTake true None; GBreak 0; GTake true (Some 4%nat); GTake true None].
Lemma enc2_ok data b : dec2 data = Some b -> bundle_encoding (enc2 b).
Proof. destruct data as [|k data]; [done|]. intros [= <-]. unfold bundle_encoding, enc2. cbn [b_seq bundle_no]. split; [done|]. split; vm_compute; congruence. Qed.
Example C129_case : exists st, grun2 broken prog0 = Some st /\ map o_addr (g_out st) = ["a"; "b"; "a"] /\ map o_failed (g_out st) = [true; false; false] /\
  given dec2 "a" broken = [bundle_no 1; bundle_no 3; bundle_no 4; bundle_no 5] /\ sent_to st "a" (g_out_log st) = [bundle_no 1; bundle_no 4] /\
  map o_bytes (g_out st) = [frame2 1; frame2 2; frame2 4].
Proof. eexists. split; [vm_compute; reflexivity|]. split_and!; by vm_compute. Qed.
Example C129_smooth_case : exists st, grun2 (take 8 broken) prog0 = Some st /\ Forall smooth (take 8 broken) /\ sent_to st "a" (g_out_log st) = [bundle_no 1] /\
  omap (for_addr dec2 "a") (g_rx st) = [bundle_no 3; bundle_no 4; bundle_no 5].
Proof. eexists. split; [vm_compute; reflexivity|]. split_and!; [by repeat constructor|by vm_compute|by vm_compute]. Qed.

(** ** C130 *)
(** However long the node takes to answer, the program can still register. *)
Definition can_register dec enc port (st : prog) : Prop :=
  exists more st', grun dec enc port more st = Some st' /\ PRegister "mtcp" false (Some port) ∈ g_sent st'.
Definition C130_full : Prop := forall dec enc port es st, grun dec enc port es prog0 = Some st -> can_register dec enc port st.
(** Missing: a hundred bundles that arrive before the websocket is open. *)
Theorem C130_registers_partial : forall dec enc port es st, grun dec enc port es prog0 = Some st ->
  g_up st = true \/ (relays es < 100)%nat -> can_register dec enc port st.
Proof. intros. by eapply registers. Qed.
Print Assumptions C130_registers_partial.
Definition hundred : list pev := GAccept "10.0.0.9:5" :: concat (replicate 100 [GChunk 0 (frame2 1); GHandle 0; GRelay]).
Theorem C130_full_refuted : ~ C130_full.
Proof.
  intros H. destruct (grun2 hundred prog0) as [st|] eqn:E; [|by vm_compute in E].
  assert (Hst : (fun st => (g_up st, length (g_cmd st), g_sent st)) <$> grun2 hundred prog0 = Some (false, 100%nat, [])) by by vm_compute.
  rewrite E in Hst. injection Hst as H1 H2 H3. destruct (H _ _ _ _ _ E) as (more & st' & E' & Hin).
  rewrite (stuck _ _ _ _ _ _ H1 H2 E'), H3 in Hin. by apply elem_of_nil in Hin.
Qed.
Print Assumptions C130_full_refuted.
Example C130_case : exists st, grun2 (take 100 hundred) prog0 = Some st /\ (relays (take 100 hundred) = 33)%nat /\ g_up st = false.
Proof. eexists. split; [vm_compute; reflexivity|]. split; by vm_compute. Qed.
