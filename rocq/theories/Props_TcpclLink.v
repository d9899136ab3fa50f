(** C111-C114: TCPCL connections at the level of bytes (model: TcpclLink.v). *)
From stdpp Require Import prelude strings pretty.
From Coq Require Import NArith Lia ZifyNat ZifyN ZifyBool.
From Verif Require Import Core Bytes TcpclWire TcpclWireProofs TcpclSession TcpclSessionProofs TcpclPair TcpclPairProofs TcpclLink TcpclLinkProofs TcpclLinkSim TcpclLinkLive TcpclClean TcpclLinkClean.
Open Scope N_scope.

(** ** C111: what it takes to get a session *)
(** the six bytes "dtn!", version 4 and any flags *)
Definition magic (fl : N) : bytes := [100; 116; 110; 33; 4; fl].
(** the message with the session parameters, as bytes: type 7, the timer on two
    bytes, the two sizes on eight, the length of the node id and the id, no
    extensions *)
Definition params_bytes (ka smru tmru : N) (id : bytes) : bytes :=
  [7] ++ be 2 ka ++ be 8 smru ++ be 8 tmru ++ be 2 (blen id) ++ id ++ be 4 0.

(** Anything the other side sends: the session starts, acts or adds a peer only
    after a contact header and session parameters naming an endpoint arrived.
    The session uses what was announced and the smaller timer.  A node becomes
    a peer only when it opened the connection, is named in the parameters and
    was not known. *)
Theorem C111_only_after_greeting : forall utf8_lossy parse_id parse_node active refuse own es,
  bytes_ok (harrived es) ->
  let c := fst (hrun utf8_lossy parse_id parse_node active refuse own es) in
  is_live c = true \/ c_log c <> [] \/ c_new c <> [] ->
  exists fl ka smru tmru raw rest e s,
    harrived es = magic fl ++ params_bytes ka smru tmru raw ++ rest /\
    c_phase c = Live (SessInit (N.min 30 ka) smru tmru (utf8_lossy raw)) s /\
    parse_node (utf8_lossy raw) = Some e /\
    (forall e', e' ∈ c_new c -> e' = e /\ active = false /\
       exists n v, eid_node e = Some n /\ HPoll v ∈ es /\ v_known v n = false).
Proof.
  intros u pi pn ac rf own es Hb c Hc. pose proof (hrun_inv u pi pn ac rf own es Hb) as H. unfold hinv in H. fold c in H.
  destruct (c_phase c) as [| |d s|] eqn:E.
  1,2,4: exfalso; unfold is_live in Hc; rewrite E in Hc; repeat match goal with H : _ /\ _ |- _ => destruct H end; destruct Hc as [?|[?|?]]; done.
  destruct H as [(fl & ka & raw & rest & Hs & Hl & Hi & Hk) (e & He & Ha & Hp)].
  exists fl, ka, (si_segment_mru d), (si_transfer_mru d), raw, rest, e, s. split; [|split; [|split]].
  - rewrite Hs. unfold hdr, magic, params_bytes. cbn [write si_keepalive si_segment_mru si_transfer_mru si_node_id]. by rewrite <- !app_assoc.
  - destruct d as [k sm tm id]. cbn in *. by subst.
  - by rewrite <- Hi.
  - intros e' Hin. destruct ac; [rewrite (Ha eq_refl) in Hin; by apply elem_of_nil in Hin|].
    destruct (Hp eq_refl) as (n & v & Hn & Hv & Hnew). rewrite Hnew in Hin. destruct (v_known v n) eqn:Ek; [by apply elem_of_nil in Hin|].
    apply elem_of_list_singleton in Hin. split; [done|]. split; [done|]. by exists n, v.
Qed.
Print Assumptions C111_only_after_greeting.

(** Conversely such a greeting is enough, in whatever pieces it arrives. *)
Theorem C111_greeting_suffices : forall utf8_lossy parse_id parse_node active refuse own es fl ka smru tmru id rest e v1 v2,
  HFail ∉ es -> harrived es = magic fl ++ params_bytes ka smru tmru id ++ rest ->
  ka < 2^16 -> smru < 2^64 -> tmru < 2^64 -> blen id < 2^16 -> utf8_lossy id = id ->
  parse_node id = Some e -> e <> DtnNone ->
  exists s, c_phase (fst (hrun utf8_lossy parse_id parse_node active refuse own (es ++ [HPoll v1; HPoll v2]))) =
            Live (SessInit (N.min 30 ka) smru tmru id) s.
Proof.
  intros u pi pn ac rf own es fl ka smru tmru id rest e v1 v2 Hf Hs H1 H2 H3 H4 H5 H6 H7.
  set (i := SessInit ka smru tmru id).
  assert (Hw : wf_packet u (PSessInit i)) by (cbn; done).
  pose proof (hopen_live u pi pn ac rf own fl i (write (PSessInit i) ++ rest) rest es v1 v2 Hf (read_write _ _ _ Hw)) as H.
  apply H.
  - exists e. split; [done|]. intros _. by destruct e.
  - rewrite Hs. unfold magic, hdr, params_bytes, i. cbn [write si_keepalive si_segment_mru si_transfer_mru si_node_id]. by rewrite <- !app_assoc.
Qed.
Print Assumptions C111_greeting_suffices.

(** Two nodes running this code: whatever happens on the connection, a side in
    the session uses the id of the other node, the size every node announces and
    the timer every node asks for; so the two agree. *)
Theorem C111_agreement : forall utf8_lossy parse_id parse_node refuse own data_of cap es x d s,
  (forall y, utf8_lossy (own y) = own y /\ blen (own y) < 2^16) ->
  c_phase (at_ (lrun utf8_lossy parse_id parse_node refuse own data_of cap es) x) = Live d s ->
  si_node_id d = own (other x) /\ si_keepalive d = 30 /\ si_segment_mru d = 64000 /\ si_transfer_mru d = 64000.
Proof.
  intros u pi pn rf own da cap es x d s Ho E. pose proof (lrun_opening u pi pn rf own da cap Ho es x) as H.
  unfold opening in H. cbv zeta in H. rewrite E in H. by destruct H as [-> _].
Qed.
Print Assumptions C111_agreement.

(** Without a failure neither side gives up before the session, and when all
    bytes written have been taken both are in the session. *)
Theorem C111_both_start : forall utf8_lossy parse_id parse_node refuse own data_of cap es x,
  (forall y, utf8_lossy (own y) = own y /\ blen (own y) < 2^16) ->
  (forall y, exists e, parse_node (own y) = Some e /\ e <> DtnNone) ->
  (forall y, LFail y ∉ es) ->
  let l := lrun utf8_lossy parse_id parse_node refuse own data_of cap es in
  c_phase (at_ l x) <> Dead /\ ((forall y, c_out (at_ l y) = []) -> is_live (at_ l x) = true).
Proof.
  intros u pi pn rf own da cap es x Ho Hn Hf. cbv zeta.
  assert (Hn' : nodes_ok pn own). { intros y. destruct (Hn y) as (e & He & Hne). exists e. split; [done|]. by destruct e. }
  split; [by apply never_dead|]. intros Hq. by apply all_taken_live.
Qed.
Print Assumptions C111_both_start.

(** A connection opened by node 9, whose greeting arrives in three pieces. *)
Definition c111_env : env := Env (fun _ => false) (fun _ => false) true.
Definition c111_node (b : bytes) : option eid := match b with [n] => Some (Dtn (pretty n) "") | _ => None end.
Definition c111_es : list hev :=
  [HArrive [100; 116; 110]; HPoll c111_env; HArrive ([33; 4; 0] ++ take 5 (params_bytes 10 500 600 [9])); HPoll c111_env; HPoll c111_env;
   HArrive (drop 5 (params_bytes 10 500 600 [9])); HPoll c111_env].
Example C111_case : let c := fst (hrun id Some c111_node false false [1] c111_es) in
  c_phase c = Live (SessInit 10 500 600 [9]) session0 /\ c_new c = [Dtn "9" ""] /\ harrived c111_es = magic 0 ++ params_bytes 10 500 600 [9] ++ [] /\
  bytes_ok (harrived c111_es).
Proof. split; [vm_compute; reflexivity|]. split; [vm_compute; reflexivity|]. split; [vm_compute; reflexivity|]. vm_compute. repeat constructor. Qed.

(** ** C112: success means received, byte by byte *)
(** [lmoderate] (TcpclLinkSim.v): each side is handed fewer than 2^64 bytes and
    transfers and the ids of the bundles are shorter than 2^16 bytes. *)
Definition arrived_at (parse_id : bytes -> option bytes) (refuse : side -> bool) (l : link) (x : side) (d : bytes) : Prop :=
  let peer := at_ l (other x) in
  EProcess d ∈ c_log peer \/
  (parse_id d = None /\ EBroken d ∈ c_log peer) \/
  (refuse x = true /\ refuse (other x) = true /\
   exists id has, parse_id d = Some id /\ has ∈ c_stores peer /\ has id = true).
Definition C112_full : Prop := forall utf8_lossy parse_id parse_node refuse own data_of cap es x h,
  ids_ok utf8_lossy own -> lmoderate parse_id data_of es ->
  let l := lrun utf8_lossy parse_id parse_node refuse own data_of cap es in
  EVerdict h Successful ∈ c_log (at_ l x) -> arrived_at parse_id refuse l x (data_of h).

(** A submission drops what was read of a message, and the payload of the
    other side's bundle is then read as an acknowledgement. *)
Definition c112_own (x : side) : bytes := match x with A => [1] | B => [2] end.
Definition c112_ack : bytes := write (PXferAck no_flags 1 1000).
Definition c112_data (h : nat) : bytes := match h with O => [5; 5; 5] | _ => c112_ack end.
Definition c112_greet : list lev := [LPoll A 6 c111_env; LPoll B 6 c111_env; LPoll A 100 c111_env; LPoll B 100 c111_env].
Definition c112_es : list lev := c112_greet ++ [LSubmit B 1 true; LPoll A 22 c111_env; LSubmit A 0 true; LPoll A 100 c111_env].
Definition c112_l : link := lrun id Some c111_node (fun _ => false) c112_own c112_data (fun _ => 1000) c112_es.
Theorem C112_full_refuted : ~ C112_full.
Proof.
  intros H.
  assert (R : ids_ok id c112_own -> lmoderate Some c112_data c112_es -> EVerdict 0 Successful ∈ c_log (at_ c112_l A) ->
    arrived_at Some (fun _ => false) c112_l A (c112_data 0))
    by exact (H id Some c111_node (fun _ => false) c112_own c112_data (fun _ => 1000) c112_es A 0%nat).
  clear H.
  assert (LA : c_log (at_ c112_l A) = [EMsg (PXferSeg (XferSeg (SegFlags true true) 1 3 [5;5;5] [])); EVerdict 0 Successful]) by (vm_compute; reflexivity).
  assert (LB : c_log (at_ c112_l B) = [EMsg (PXferSeg (XferSeg (SegFlags true true) 1 18 c112_ack []))]) by (vm_compute; reflexivity).
  assert (M : arrived_at Some (fun _ => false) c112_l A (c112_data 0)).
  { apply R; [intros []; split; vm_compute; reflexivity| |rewrite LA; right; left]. split.
    - intros []; vm_compute; reflexivity.
    - intros []; vm_compute; reflexivity.
    - intros x h r id Hi Hid. assert (id = c112_data h) as -> by congruence. destruct h; vm_compute; reflexivity. }
  unfold arrived_at in M. cbv zeta in M. cbn [other] in M. rewrite LB in M. destruct M as [M|[[[=] _]|[[=] _]]].
  by apply elem_of_list_singleton in M.
Qed.
Print Assumptions C112_full_refuted.

(** [nothing_abandoned] (TcpclLinkSim.v): a submission, the timer or the closing
    of the queue never comes while part of a message has been read. *)
Theorem C112_byte_level_partial : forall utf8_lossy parse_id parse_node refuse own data_of cap es x h,
  ids_ok utf8_lossy own -> lmoderate parse_id data_of es ->
  nothing_abandoned utf8_lossy parse_id parse_node refuse own data_of cap es ->
  let l := lrun utf8_lossy parse_id parse_node refuse own data_of cap es in
  EVerdict h Successful ∈ c_log (at_ l x) -> arrived_at parse_id refuse l x (data_of h).
Proof.
  intros u pi pn rf own da cap es x h Ho Hm Hn l Hv. unfold arrived_at. cbv zeta.
  destruct (link_received u pi pn rf own da cap Ho es x h Hm Hn Hv) as [[H|H]|H]; auto.
Qed.
Print Assumptions C112_byte_level_partial.

(** Two bundles cross in pieces. *)
Definition c112_ok : list lev := c112_greet ++ [LSubmit A 0 true; LSubmit B 1 true; LPoll A 7 c111_env; LPoll B 25 c111_env; LPoll A 100 c111_env; LPoll A 100 c111_env; LPoll B 100 c111_env; LPoll B 100 c111_env; LPoll A 100 c111_env].
Lemma no_loss_cons u pi pn rf own da cap es : forall l0,
  (forall es1 e es2, es = es1 ++ e :: es2 -> no_loss u pi pn rf own da cap (fold_left (lstep u pi pn rf own da cap) es1 l0) e) <->
  match es with [] => True | e :: es => no_loss u pi pn rf own da cap l0 e /\
    (forall es1 e' es2, es = es1 ++ e' :: es2 -> no_loss u pi pn rf own da cap (fold_left (lstep u pi pn rf own da cap) es1 (lstep u pi pn rf own da cap l0 e)) e') end.
Proof.
  intros l0. destruct es as [|e es].
  - split; [done|]. by intros _ [|? ?] e es2 H.
  - split.
    + intros H. split; [by apply (H [] e es)|]. intros es1 e' es2 ->. by apply (H (e :: es1) e' es2).
    + intros [H1 H2] [|e1 es1] e' es2 H; [by injection H as <- <-|]. injection H as <- ->. by apply (H2 es1 e' es2).
Qed.
Example C112_case : nothing_abandoned id Some c111_node (fun _ => false) c112_own c112_data (fun _ => 1000) c112_ok /\
  let l := lrun id Some c111_node (fun _ => false) c112_own c112_data (fun _ => 1000) c112_ok in
  EVerdict 0 Successful ∈ c_log (at_ l A) /\ EProcess [5; 5; 5] ∈ c_log (at_ l B) /\ EVerdict 1 Successful ∈ c_log (at_ l B).
Proof.
  split.
  - unfold nothing_abandoned, lrun. repeat (apply no_loss_cons; split; [vm_compute; try reflexivity; exact I|]). by apply no_loss_cons.
  - cbv zeta. set (l := lrun _ _ _ _ _ _ _ _).
    assert (LA : c_log (at_ l A) = [EMsg (PXferSeg (XferSeg (SegFlags true true) 1 3 [5;5;5] [])); EMsg (PXferAck no_flags 1 18); EProcess c112_ack; EVerdict 0 Successful]) by (vm_compute; reflexivity).
    assert (LB : c_log (at_ l B) = [EMsg (PXferSeg (XferSeg (SegFlags true true) 1 18 c112_ack [])); EMsg (PXferAck no_flags 1 3); EProcess [5;5;5]; EVerdict 1 Successful]) by (vm_compute; reflexivity).
    rewrite LA, LB. split; [repeat constructor|]. split; repeat constructor.
Qed.

(** ** C113: a transfer comes to an end *)
(** [taken] (TcpclLinkLive.v): the bundles a side has taken from its queue, in
    order.  [results]: the bundles it has reported on. *)
Definition results (c : conn) : list nat := omap (fun e => match e with EVerdict h _ => Some h | _ => None end) (c_log c).
Definition session_over (c : conn) : Prop := exists d s, c_phase c = Live d s /\ is_terminated s = true.
(** From wherever a run without failures has come, it can go on so that a
    session ends or all bundles taken have been reported on. *)
Definition C113_full (cap : side -> N) : Prop := forall utf8_lossy parse_id parse_node refuse own data_of es,
  ids_ok utf8_lossy own -> nodes_ok parse_node own -> lmoderate parse_id data_of es ->
  nothing_abandoned utf8_lossy parse_id parse_node refuse own data_of cap es -> (forall y, LFail y ∉ es) ->
  exists es2, (forall y, LFail y ∉ es2) /\
    let l := lrun utf8_lossy parse_id parse_node refuse own data_of cap (es ++ es2) in
    (exists y, session_over (at_ l y)) \/
    forall x, results (at_ l x) = taken utf8_lossy parse_id parse_node refuse own data_of cap link0 x (es ++ es2).

(** Both sides write a bundle larger than the pipes hold: each waits for the
    other to read, for any size of the pipes. *)
Section Stuck.
  Variable cap : side -> N.
  Hypothesis Hcap : forall x, 64 <= cap x.
  Definition big (h : nat) : bytes := repeat 0 (N.to_nat (cap A + cap B + 1)).
  Notation step1 := (lstep id (fun _ => Some []) c111_node (fun _ => false) c112_own big cap).
  Notation run1 := (lrun id (fun _ => Some []) c111_node (fun _ => false) c112_own big cap).
  Definition stuck_es : list lev := c112_greet ++ [LSubmit A 0 true; LSubmit B 1 true].
  Lemma not_busy l x : blen (c_out (at_ l x)) <= 64 -> busy cap l x = false.
  Proof using Hcap. intros H. unfold busy. specialize (Hcap x). destruct (N.ltb_spec (cap x) (blen (c_out (at_ l x)))); [lia|done]. Qed.
  Definition greeted (x : side) : conn := Conn (Live (SessInit 30 64000 64000 (c112_own (other x))) session0) [] [] [] []
    (match x with A => [] | B => [Dtn "1" ""] end).
  Definition polled (l : link) (x : side) (n : nat) (v : env) : link :=
    let r := poll id (fun _ => Some []) c111_node (opened x) false (c112_own x) (at_ l x) v (take n (c_out (at_ l (other x)))) in
    with_ (with_ l (other x) (set_out (at_ l (other x)) (snd r ++ drop n (c_out (at_ l (other x)))))) x (fst r).
  Lemma step_polled l x n v : blen (c_out (at_ l x)) <= 64 -> step1 l (LPoll x n v) = polled l x n v.
  Proof using Hcap. intros H. by apply lstep_poll, not_busy. Qed.
  Lemma greet_run : run1 c112_greet = Link (greeted A) (greeted B).
  Proof using Hcap.
    unfold lrun, c112_greet. cbn [fold_left].
    rewrite (step_polled link0 A 6 c111_env) by (vm_compute; discriminate). set (l1 := polled link0 A 6 c111_env).
    rewrite (step_polled l1 B 6 c111_env) by (vm_compute; discriminate). set (l2 := polled l1 B 6 c111_env).
    rewrite (step_polled l2 A 100 c111_env) by (vm_compute; discriminate). set (l3 := polled l2 A 100 c111_env).
    rewrite (step_polled l3 B 100 c111_env) by (vm_compute; discriminate). vm_compute. reflexivity.
  Qed.
  Lemma segs_long l : Forall (fun d => 0 < xs_len d) l -> blen (concat (map xs_buf l)) <= blen (concat (map write (map PXferSeg l))).
  Proof using.
    clear. induction 1 as [|d l Hd _ IH]; [done|]. cbn [map concat]. rewrite !blen_app. enough (blen (xs_buf d) <= blen (write (PXferSeg d))) by lia.
    cbn [write]. rewrite !blen_app. apply N.ltb_lt in Hd. rewrite Hd. lia.
  Qed.
  Definition sending (x : side) (h : nat) : conn := react1 (fun _ => Some []) false (greeted x) (SessInit 30 64000 64000 (c112_own (other x))) session0 (EvSubmit (big h) h true) [].
  Lemma step_submit l x h : at_ l x = greeted x -> step1 l (LSubmit x h true) = with_ l x (sending x h).
  Proof using Hcap. intros E. cbn [lstep]. rewrite not_busy by (rewrite E; destruct x; done). rewrite E. by destruct x. Qed.
  Lemma stuck_run : run1 stuck_es = Link (sending A 0) (sending B 1).
  Proof using Hcap.
    unfold stuck_es, lrun. rewrite fold_left_app. fold (run1 c112_greet). rewrite greet_run. cbn [fold_left].
    rewrite (step_submit (Link (greeted A) (greeted B)) A 0) by done. cbn [with_ lb].
    rewrite (step_submit (Link (sending A 0) (greeted B)) B 1) by done. done.
  Qed.
  Lemma sending_facts x h : exists s, c_phase (sending x h) = Live (SessInit 30 64000 64000 (c112_own (other x))) s /\ is_terminated s = false /\
    c_log (sending x h) = map (fun d => EMsg (PXferSeg d)) (segments false 64000 1 (big h)) /\
    c_out (sending x h) = concat (map write (map PXferSeg (segments false 64000 1 (big h)))).
  Proof using.
    clear Hcap. assert (Hne : segments false 64000 1 (big h) <> []).
    { intros E. apply segments_nil in E; [|lia]. unfold big in E. destruct (N.to_nat (cap A + cap B + 1)) eqn:En; [lia|done]. }
    unfold sending, react1, TcpclSession.step. change (is_terminated session0) with false. cbv iota. change (s_send session0) with SIdle. cbv iota.
    unfold send. cbn [si_segment_mru]. unfold send_bundle. change (64000 =? 0) with false. cbv iota. rewrite bool_decide_eq_false_2 by exact Hne.
    cbn [fst snd c_phase c_log c_out greeted s_last_tid session0]. eexists. split; [reflexivity|]. rewrite msgs_segs. done.
  Qed.
  Lemma sending_busy l x h : at_ l x = sending x h -> busy cap l x = true.
  Proof using.
    clear Hcap. intros E. unfold busy. rewrite E. destruct (sending_facts x h) as (s & _ & _ & _ & ->).
    assert (H : blen (big h) <= blen (concat (map write (map PXferSeg (segments false 64000 1 (big h)))))).
    { destruct (segments_carries false 64000 1 (big h)) as [Hd Hs _ _]; [lia|]. rewrite <- segs_long; [by rewrite Hd|].
      eapply Forall_impl; [exact Hs|]. cbn. intros d (H1 & -> & _). lia. }
    unfold big in H at 1. unfold blen in H at 1. rewrite repeat_length in H. apply N.ltb_lt. destruct x; lia.
  Qed.
  Lemma stuck_forever es2 : (forall y, LFail y ∉ es2) -> run1 (stuck_es ++ es2) = Link (sending A 0) (sending B 1).
  Proof using Hcap.
    intros Hf. unfold lrun. rewrite fold_left_app. fold (run1 stuck_es). rewrite stuck_run. clear Hcap.
    assert (Hb : forall x, busy cap (Link (sending A 0) (sending B 1)) x = true) by (intros []; by eapply sending_busy).
    induction es2 as [|e es2 IH]; [done|]. cbn [fold_left].
    assert (E : step1 (Link (sending A 0) (sending B 1)) e = Link (sending A 0) (sending B 1)).
    { destruct e as [x n v|x h r|x|x|x]; cbn [lstep]; [by rewrite Hb..|]. destruct (Hf x). left. }
    rewrite E. apply IH. intros y Hy. apply (Hf y). by right.
  Qed.
End Stuck.
Theorem C113_full_refuted : forall cap, (forall x, 64 <= cap x) -> cap A + cap B < 2^63 -> ~ C113_full cap.
Proof.
  intros cap Hcap Hc2 H.
  destruct (H id (fun _ => Some []) c111_node (fun _ => false) c112_own (big cap) stuck_es) as (es2 & Hf & Hr).
  - intros []; split; vm_compute; reflexivity.
  - intros []; eexists; split; [reflexivity|discriminate|reflexivity|discriminate].
  - assert (L : blen (big cap 0) < 2^64) by (unfold big, blen; rewrite repeat_length; lia).
    assert (L1 : blen (big cap 1) < 2^64) by exact L.
    split.
    + intros []; [change (blen (big cap 0) + 0 < 2^64)|change (blen (big cap 1) + 0 < 2^64)]; rewrite N.add_0_r; assumption.
    + intros []; vm_compute; reflexivity.
    + intros x h r id _ [= <-]. vm_compute. reflexivity.
  - unfold nothing_abandoned, stuck_es, lrun.
    assert (G : forall l e, match e with LPoll _ _ _ => True | LSubmit x _ _ => c_held (at_ l x) = [] | _ => False end -> no_loss id (fun _ => Some []) c111_node (fun _ => false) c112_own (big cap) cap l e).
    { intros l e. destruct e as [| x h r| | |]; try done. cbn [no_loss]. intros E. rewrite E. cbn [lstep]. destruct (busy cap l x); [done|].
      rewrite at_with_same. unfold other_branch. destruct (c_phase (at_ l x)); try done. destruct (is_terminated s); [done|]. destruct (s_send s); done. }
    repeat (apply no_loss_cons; split; [apply G; try exact I|]); [| |by apply no_loss_cons].
    + change (c_held (at_ (lrun id (fun _ => Some []) c111_node (fun _ => false) c112_own (big cap) cap c112_greet) A) = []). by rewrite greet_run.
    + change (c_held (at_ (lstep id (fun _ => Some []) c111_node (fun _ => false) c112_own (big cap) cap (lrun id (fun _ => Some []) c111_node (fun _ => false) c112_own (big cap) cap c112_greet) (LSubmit A 0 true)) B) = []).
      rewrite greet_run by done. rewrite step_submit by done. done.
  - intros y. unfold stuck_es, c112_greet. intros Hi. repeat (apply elem_of_cons in Hi as [Hi|Hi]; [discriminate Hi|]). by apply elem_of_nil in Hi.
  - cbv zeta in Hr. rewrite stuck_forever in Hr by done. destruct Hr as [(y & d & s & E & Et)|Hr].
    + assert (E' : c_phase (sending cap y (match y with A => 0 | B => 1 end)%nat) = Live d s) by (by destruct y).
      destruct (sending_facts cap y (match y with A => 0 | B => 1 end)%nat) as (s' & E2 & Et2 & _). rewrite E2 in E'. injection E' as _ ->. congruence.
    + specialize (Hr A). unfold results in Hr. change (at_ (Link (sending cap A 0) (sending cap B 1)) A) with (sending cap A 0) in Hr. destruct (sending_facts cap A 0) as (s' & _ & _ & El & _). rewrite El in Hr.
      assert (E0 : omap (fun e => match e with EVerdict h _ => Some h | _ => None end) (map (fun d => EMsg (PXferSeg d)) (segments false 64000 1 (big cap 0))) = []).
      { clear. generalize (segments false 64000 1 (big cap 0)). intros l. induction l as [|d l IH]; [done|exact IH]. }
      rewrite E0 in Hr. clear E0 El.
      assert (T : 0%nat ∈ taken id (fun _ => Some []) c111_node (fun _ => false) c112_own (big cap) cap link0 A (stuck_es ++ es2)).
      { assert (P : forall es1 es3 l, 0%nat ∈ taken id (fun _ => Some []) c111_node (fun _ => false) c112_own (big cap) cap (fold_left (lstep id (fun _ => Some []) c111_node (fun _ => false) c112_own (big cap) cap) es1 l) A es3 ->
          0%nat ∈ taken id (fun _ => Some []) c111_node (fun _ => false) c112_own (big cap) cap l A (es1 ++ es3)).
        { induction es1 as [|e es1 IH]; intros es3 l Hi; [done|]. cbn [app taken]. apply elem_of_app. right. by apply IH. }
        unfold stuck_es. rewrite <- app_assoc. apply P. fold (lrun id (fun _ => Some []) c111_node (fun _ => false) c112_own (big cap) cap c112_greet).
        rewrite greet_run by done. cbn [app taken]. rewrite decide_True by done. unfold ready. rewrite not_busy by done. left. }
      rewrite <- Hr in T. by apply elem_of_nil in T.
Qed.
Print Assumptions C113_full_refuted.

(** If no read is abandoned and after some point the writes fit into the pipes,
    then reading again and again all that is under way ([Hfair]) leads to the end
    of a session or to results for all bundles taken. *)
Theorem C113_reading_on_partial : forall utf8_lossy parse_id parse_node refuse own data_of cap es f,
  ids_ok utf8_lossy own -> nodes_ok parse_node own -> lmoderate parse_id data_of es ->
  nothing_abandoned utf8_lossy parse_id parse_node refuse own data_of cap es -> (forall y, LFail y ∉ es) ->
  let after k := es ++ map (fun i => let '(x, n, v) := f i in LPoll x n v) (seq 0 k) in
  let l k := lrun utf8_lossy parse_id parse_node refuse own data_of cap (after k) in
  (forall k y, blen (c_out (at_ (l k) y)) <= cap y) ->
  (forall i x, exists j n v, (i <= j)%nat /\ f j = (x, n, v) /\ (length (c_out (at_ (l j) (other x))) <= n)%nat) ->
  exists k, (exists y, session_over (at_ (l k) y)) \/
    forall x, results (at_ (l k) x) = taken utf8_lossy parse_id parse_node refuse own data_of cap link0 x (after k).
Proof.
  intros u pi pn rf own da cap es f Ho Hn Hm Hna Hf after l Hb Hfair.
  destruct (drains u pi pn rf own da cap Ho es f Hn Hf Hm Hna) as (k & [Hk|Hk]).
  - intros k y. unfold busy. apply N.ltb_ge. exact (Hb k y).
  - exact Hfair.
  - exists k. left. exact Hk.
  - exists k. right. intros x. destruct (Hk x) as (_ & _ & H). exact H.
Qed.
Print Assumptions C113_reading_on_partial.
(** No session goes on with everything read and a bundle without result. *)
Theorem C113_nothing_pending_partial : forall utf8_lossy parse_id parse_node refuse own data_of cap es x,
  ids_ok utf8_lossy own -> lmoderate parse_id data_of es ->
  nothing_abandoned utf8_lossy parse_id parse_node refuse own data_of cap es ->
  let l := lrun utf8_lossy parse_id parse_node refuse own data_of cap es in
  (forall y, exists d s, c_phase (at_ l y) = Live d s /\ is_terminated s = false) -> (forall y, c_out (at_ l y) = []) ->
  results (at_ l x) = taken utf8_lossy parse_id parse_node refuse own data_of cap link0 x es.
Proof.
  intros u pi pn rf own da cap es x Ho Hm Hna l Ha Hq. by destruct (link_quiescent u pi pn rf own da cap Ho es x Hm Hna Ha Hq) as [H _].
Qed.
Print Assumptions C113_nothing_pending_partial.

(** Both sides hand over a bundle and read in turns. *)
Definition c113_es : list lev := c112_greet ++ [LSubmit A 0 true; LSubmit B 1 true].
Definition c113_f (i : nat) : side * nat * env := (if Nat.even i then A else B, 1000%nat, c111_env).
Example C113_case : let l k := lrun id Some c111_node (fun _ => false) c112_own c112_data (fun _ => 1000)
    (c113_es ++ map (fun i => let '(x, n, v) := c113_f i in LPoll x n v) (seq 0 k)) in
  nothing_abandoned id Some c111_node (fun _ => false) c112_own c112_data (fun _ => 1000) c113_es /\
  taken id Some c111_node (fun _ => false) c112_own c112_data (fun _ => 1000) link0 A c113_es = [0%nat] /\
  results (at_ (l 4%nat) A) = [0%nat] /\ results (at_ (l 4%nat) B) = [1%nat].
Proof.
  split; [|split; [vm_compute; reflexivity|split; vm_compute; reflexivity]].
  unfold nothing_abandoned, lrun. repeat (apply no_loss_cons; split; [vm_compute; try reflexivity; exact I|]). by apply no_loss_cons.
Qed.

(** ** C114: an undisturbed connection *)
(** Nothing happens but reading and handing over valid bundles; the layer that
    handed a bundle over is there when its result comes. *)
Definition nothing_wrong (parse_id : bytes -> option bytes) (data_of : nat -> bytes) (es : list lev) : Prop :=
  forall e, e ∈ es -> (exists x n v, e = LPoll x n v /\ v_resp v = true) \/ (exists x h r, e = LSubmit x h r /\ is_Some (parse_id (data_of h)) /\ data_of h <> []).
Definition C114_full : Prop := forall utf8_lossy parse_id parse_node refuse own data_of cap es x,
  ids_ok utf8_lossy own -> nodes_ok parse_node own -> lmoderate parse_id data_of es -> nothing_wrong parse_id data_of es ->
  let l := lrun utf8_lossy parse_id parse_node refuse own data_of cap es in
  ~ session_over (at_ l x) /\ forall h r, EVerdict h r ∈ c_log (at_ l x) -> r = Successful.

(** A submission drops the two bytes read of a message, the next byte is taken
    for the type of a message and the session ends. *)
Definition c114_es : list lev := c112_greet ++ [LSubmit B 0 true; LPoll A 2 c111_env; LSubmit A 1 true; LPoll A 100 c111_env].
Lemma c114_wrong es : (forall e, e ∈ es -> (exists x n, e = LPoll x n c111_env) \/ exists x h r, e = LSubmit x h r) -> nothing_wrong Some c112_data es.
Proof.
  intros H e Hi. destruct (H e Hi) as [(x & n & ->)|(x & h & r & ->)].
  - left. by eexists _, _, _.
  - right. eexists _, _, _. split; [done|]. split; [by eexists|]. destruct h; vm_compute; discriminate.
Qed.
Ltac c114_events := apply c114_wrong; intros e Hi; unfold c114_es, c113_es, c112_greet in Hi; cbn [app] in Hi;
  repeat (apply elem_of_cons in Hi as [->|Hi]; [first [left; eexists _, _; reflexivity|right; eexists _, _, _; reflexivity]|]); by apply elem_of_nil in Hi.
Lemma c112_moderate es : (length es < 1000)%nat -> lmoderate Some c112_data es.
Proof.
  intros Hl.
  assert (Hd : forall h, blen (c112_data h) <= 18) by (intros []; vm_compute; discriminate).
  assert (G : forall x, lamount c112_data x es <= 18 * N.of_nat (length es) /\ lnumber x es <= N.of_nat (length es)).
  { intros x. clear Hl. induction es as [|e es [IH1 IH2]]; [done|]. cbn [length]. rewrite Nat2N.inj_succ. unfold lamount, lnumber in *. cbn [foldr].
    destruct e as [| y h r| | |]; try (split; lia). specialize (Hd h). destruct (decide (y = x)); split; lia. }
  split.
  - intros x. destruct (G x). lia.
  - intros x. destruct (G x). lia.
  - intros x h r id _ [= <-]. specialize (Hd h). lia.
Qed.
Lemma c112_ids : ids_ok id c112_own.
Proof. intros []; split; vm_compute; reflexivity. Qed.
Lemma c112_nodes : nodes_ok c111_node c112_own.
Proof. intros []; eexists; split; [reflexivity|discriminate|reflexivity|discriminate]. Qed.
Theorem C114_full_refuted : ~ C114_full.
Proof.
  intros H.
  destruct (H id Some c111_node (fun _ => false) c112_own c112_data (fun _ => 1000) c114_es A c112_ids c112_nodes) as [Hs _].
  - apply c112_moderate; vm_compute; lia.
  - c114_events.
  - apply Hs. eexists _, _. split; vm_compute; reflexivity.
Qed.
Print Assumptions C114_full_refuted.

(** As long as no read is abandoned, no session ends and no result is a failure. *)
Theorem C114_no_failure_partial : forall utf8_lossy parse_id parse_node refuse own data_of cap es x,
  ids_ok utf8_lossy own -> lmoderate parse_id data_of es -> nothing_wrong parse_id data_of es ->
  nothing_abandoned utf8_lossy parse_id parse_node refuse own data_of cap es ->
  let l := lrun utf8_lossy parse_id parse_node refuse own data_of cap es in
  ~ session_over (at_ l x) /\ forall h r, EVerdict h r ∈ c_log (at_ l x) -> r = Successful.
Proof.
  intros u pi pn rf own da cap es x Ho Hm Hw Hna l. apply (link_clean u pi pn rf own da cap Ho es Hm Hna). apply Forall_forall.
  intros e He. destruct (Hw e He) as [(y & n & v & -> & Hv)|(y & h & r & -> & [i Hp] & Hd)]; cbn; [done|]. rewrite Hp. done.
Qed.
Print Assumptions C114_no_failure_partial.
(** If moreover the writes fit into the pipes and all that is under way is read
    again and again, there comes a point where every bundle taken is reported as
    transferred and has arrived, on both sides. *)
Theorem C114_all_arrive_partial : forall utf8_lossy parse_id parse_node refuse own data_of cap es f,
  ids_ok utf8_lossy own -> nodes_ok parse_node own -> lmoderate parse_id data_of es -> nothing_wrong parse_id data_of es ->
  nothing_abandoned utf8_lossy parse_id parse_node refuse own data_of cap es ->
  let after k := es ++ map (fun i => let '(x, n, v) := f i in LPoll x n v) (seq 0 k) in
  let l k := lrun utf8_lossy parse_id parse_node refuse own data_of cap (after k) in
  (forall k y, blen (c_out (at_ (l k) y)) <= cap y) ->
  (forall i x n v, f i = (x, n, v) -> v_resp v = true) ->
  (forall i x, exists j n v, (i <= j)%nat /\ f j = (x, n, v) /\ (length (c_out (at_ (l j) (other x))) <= n)%nat) ->
  exists k, forall x h, h ∈ taken utf8_lossy parse_id parse_node refuse own data_of cap link0 x es ->
    EVerdict h Successful ∈ c_log (at_ (l k) x) /\ arrived_at parse_id refuse (l k) x (data_of h).
Proof.
  intros u pi pn rf own da cap es f Ho Hn Hm Hw Hna after l Hb Hv Hfair.
  assert (Hf : forall y, LFail y ∉ es).
  { intros y Hi. destruct (Hw _ Hi) as [(? & ? & ? & [=] & _)|(? & ? & ? & [=] & _)]. }
  assert (Hbusy : forall k y, busy cap (lrun u pi pn rf own da cap (es ++ reads f k)) y = false).
  { intros k y. unfold busy. apply N.ltb_ge. exact (Hb k y). }
  destruct (drains u pi pn rf own da cap Ho es f Hn Hf Hm Hna Hbusy Hfair) as (k & Hk).
  pose proof (reads_moderate u pi pn rf own da cap es f Hf Hm Hbusy Hfair k) as Hmk.
  pose proof (reads_keep u pi pn rf own da cap es f Hna Hbusy Hfair k) as Hnk.
  assert (Hu : Forall (undisturbed pi da) (es ++ reads f k)).
  { apply Forall_app. split; apply Forall_forall.
    - intros e He. destruct (Hw e He) as [(y & n & v & -> & Hr)|(y & h & r & -> & [i Hp] & Hd)]; cbn; [done|]. by rewrite Hp.
    - intros e He. unfold reads in He. apply elem_of_list_fmap in He as (i & -> & _). destruct (f i) as [[y n] v] eqn:E. cbn. by eapply Hv. }
  pose proof (link_clean u pi pn rf own da cap Ho _ Hmk Hnk Hu) as Hc.
  destruct Hk as [(y & Hk)|Hk]; [by destruct (Hc y)|]. exists k. intros x h Hi.
  destruct (Hk x) as (_ & _ & Hres).
  assert (Hin : h ∈ verdicts (at_ (lrun u pi pn rf own da cap (es ++ reads f k)) x)).
  { rewrite Hres. clear -Hi. revert Hi. generalize link0. intros l0. revert l0. induction es as [|e es IH]; intros l0 Hi; [by apply elem_of_nil in Hi|].
    cbn [app taken] in *. apply elem_of_app in Hi as [Hi|Hi]; apply elem_of_app; [by left|right; by apply IH]. }
  apply verdicts_in in Hin as [r Hr]. assert (r = Successful) as -> by (by eapply Hc).
  split; [exact Hr|]. exact (C112_byte_level_partial u pi pn rf own da cap (es ++ reads f k) x h Ho Hmk Hnk Hr).
Qed.
Print Assumptions C114_all_arrive_partial.

Example C114_case : nothing_wrong Some c112_data c113_es /\ lmoderate Some c112_data c113_es /\ ids_ok id c112_own /\ nodes_ok c111_node c112_own /\
  let l k := lrun id Some c111_node (fun _ => false) c112_own c112_data (fun _ => 1000)
    (c113_es ++ map (fun i => let '(x, n, v) := c113_f i in LPoll x n v) (seq 0 k)) in
  c_log (at_ (l 4%nat) A) = [EMsg (PXferSeg (XferSeg (SegFlags true true) 1 3 [5;5;5] [])); EMsg (PXferAck no_flags 1 18); EProcess c112_ack; EVerdict 0 Successful].
Proof.
  split; [c114_events|]. split; [apply c112_moderate; vm_compute; lia|].
  split; [apply c112_ids|]. split; [apply c112_nodes|]. vm_compute. reflexivity.
Qed.
