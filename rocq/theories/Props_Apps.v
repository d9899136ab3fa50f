(** C43-C45, C69-C72: application endpoints and websocket clients. *)
From stdpp Require Import prelude strings pretty gmap.
From Coq Require Import NArith Lia ZifyBool ZifyN ZifyNat.
From Verif Require Import Core Routing Apps AppsProofs AppsOrder.
Open Scope N_scope.

(** ** Observations of a history *)
(** stored for polling *)
Definition stored (e : eid) (tr : list ev) : list bundle :=
  flat_map (fun v => match v with EDeliver b Queued => if bool_decide (b_dst b = e) then [b] else [] | _ => [] end) tr.
(** handed out by a poll over HTTP or by the fetch of a websocket client *)
Definition polled (e : eid) (tr : list ev) : list bundle :=
  flat_map (fun v => match v with
                     | EPoll e' (Some b) | EWork _ (WPop e') (Some b) => if bool_decide (e' = e) then [b] else []
                     | _ => [] end) tr.
(** delivered to the endpoint, whatever happened to it *)
Definition delivered (e : eid) (tr : list ev) : list bundle :=
  flat_map (fun v => match v with EDeliver b _ => if bool_decide (b_dst b = e) then [b] else [] | _ => [] end) tr.
(** passed to the session of client [i] *)
Definition passed (i : nat) (tr : list ev) : list bundle :=
  flat_map (fun v => match v with EDeliver b (Passed j) => if bool_decide (j = i) then [b] else [] | _ => [] end) tr.
(** fetched from a queue for client [i] *)
Definition fetched (i : nat) (tr : list ev) : list bundle :=
  flat_map (fun v => match v with EWork j (WPop _) (Some b) => if bool_decide (j = i) then [b] else [] | _ => [] end) tr.
(** written to client [i], having been passed / fetched *)
Definition wrote_passed (i : nat) (tr : list ev) : list bundle :=
  flat_map (fun v => match v with EHand j b => if bool_decide (j = i) then [b] else [] | _ => [] end) tr.
Definition wrote_fetched (i : nat) (tr : list ev) : list bundle :=
  flat_map (fun v => match v with EWork j WFlush (Some b) => if bool_decide (j = i) then [b] else [] | _ => [] end) tr.
(** bundles for [e] written to client [i] *)
Definition written (e : eid) (i : nat) (tr : list ev) : list bundle :=
  flat_map (fun v => match v with
                     | EHand j b | EWork j WFlush (Some b) => if decide (j = i) then if decide (b_dst b = e) then [b] else [] else []
                     | _ => [] end) tr.
(** the daemon has just started *)
Definition start : apps := AppState [] [] [].
(** passed to the session, not yet written *)
Definition inbox_of (s : session) : list bundle := option_list (ws_hand s) ++ ws_chan s.
(** nothing left to do for the session *)
Definition at_rest (s : session) : Prop := ws_open s = true /\ ws_job s = [] /\ ws_hand s = None /\ ws_chan s = [].

(** ** C43 *)
(** The bundles handed out for an endpoint and then those still stored are the
    ones stored, in order; a delivery ends in exactly one way: refused when no
    endpoint has the name, put into the channel of a connected subscriber that
    has room, and stored otherwise; channels are first-in first-out. *)
Theorem C43_endpoints_fifo : forall parse_eid host local_eid dec_bundle dec_send st tr st',
  run parse_eid host local_eid dec_bundle dec_send st tr st' ->
  (forall e a, find_agent e (a_agents st) = Some a -> EUnregister e ∉ tr ->
     exists a', find_agent e (a_agents st') = Some a' /\ ag_queue a ++ stored e tr = polled e tr ++ ag_queue a') /\
  (forall i s, a_sessions st !! i = Some s -> EDrop i ∉ tr ->
     exists s', a_sessions st' !! i = Some s' /\ inbox_of s ++ passed i tr = wrote_passed i tr ++ inbox_of s').
Proof.
  intros pe h le db ds st tr st' Hr. split.
  - intros e a Ha Hn. destruct (run_queue pe h le db ds _ _ _ e (ag_queue a) Hr) as (q' & Hq' & E); [by unfold queue_of; rewrite Ha|done|].
    unfold queue_of in Hq'. destruct (find_agent e (a_agents st')) as [a'|]; [|done]. injection Hq' as <-. exists a'. split; [done|].
    exact E.
  - intros i s Hs Hn. destruct (run_inbox pe h le db ds _ _ _ i s Hr Hs Hn) as (s' & Hs' & E). exists s'. split; [done|]. exact E.
Qed.
Print Assumptions C43_endpoints_fifo.

Definition room (st : apps) (a : agent) (i : nat) : Prop :=
  ag_sub a = Some i /\ exists s, a_sessions st !! i = Some s /\ ws_rx s = true /\ (length (ws_chan s) < 32)%nat.
Theorem C43_each_delivery : forall parse_eid host local_eid dec_bundle dec_send st b,
  let step := step parse_eid host local_eid dec_bundle dec_send in
  (exists f st', step st (EDeliver b f) st') /\
  forall f st', step st (EDeliver b f) st' ->
    match find_agent (b_dst b) (a_agents st) with
    | None => f = NoEndpoint /\ st' = st
    | Some a =>
        (forall i, room st a i -> f = Passed i) /\ ((forall i, ~ room st a i) -> f = Queued) /\
        match f with
        | NoEndpoint => False
        | Queued => a_sessions st' = a_sessions st /\
            forall e, find_agent e (a_agents st') = if decide (e = b_dst b) then Some (Agent (ag_eid a) (ag_queue a ++ [b]) (ag_sub a)) else find_agent e (a_agents st)
        | Passed i => a_agents st' = a_agents st /\
            forall j, inbox_of <$> a_sessions st' !! j = (if decide (j = i) then (fun l => l ++ [b]) else id) <$> (inbox_of <$> a_sessions st !! j)
        end
    end.
Proof.
  intros pe h le db ds st b step0. split.
  - destruct (find_agent (b_dst b) (a_agents st)) as [a|] eqn:Ea; [|eexists _, _; by eapply s_none].
    destruct (ag_sub a) as [i|] eqn:Ei.
    + destruct (a_sessions st !! i) as [s|] eqn:Es.
      * destruct (accepts s) eqn:Ac; [eexists _, _; by eapply s_pass|]. eexists _, _. eapply s_queue; [done|]. intros j s' Hj Hs'; congruence.
      * eexists _, _. eapply s_queue; [done|]. intros j s' Hj Hs'; congruence.
    + eexists _, _. eapply s_queue; [done|]. congruence.
  - intros f st' H. inversion H as [| |? ? Hn|? ? a Ha Hno|? ? a i s Ha Hi Hs Hac| | | | | | | | | | | | | | | | | |]; subst.
    + by rewrite Hn.
    + rewrite Ha. split; [|split; [done|split; [done|]]].
      * intros i (Hi & s & Hs & Hx & Hl). specialize (Hno i s Hi Hs). unfold accepts in Hno. rewrite Hx in Hno. apply Nat.ltb_ge in Hno. unfold CHANNEL in Hno. lia.
      * intros e. cbn [a_agents upd]. case_decide; [subst; rewrite find_alter by done; by rewrite Ha|]. by rewrite find_alter_ne.
    + rewrite Ha. split; [|split; [|split; [done|]]].
      * intros j (Hj & _). congruence.
      * intros Hno. exfalso. apply (Hno i). split; [done|]. exists s. unfold accepts in Hac. apply andb_prop in Hac as [? ?%Nat.ltb_lt]. done.
      * intros j. cbn. case_decide as Hd; [subst j|].
        -- rewrite list_lookup_insert by (by eapply lookup_lt_Some). rewrite Hs. unfold inbox_of. cbn. by rewrite app_assoc.
        -- rewrite list_lookup_insert_ne by done. by destruct (a_sessions st !! j).
Qed.
Print Assumptions C43_each_delivery.

(** ** C44 *)
Theorem C44_registration : forall parse_eid host local_eid dec_bundle dec_send tr st,
  run parse_eid host local_eid dec_bundle dec_send start tr st ->
  NoDup (map ag_eid (a_agents st)) /\
  forall e st', 
    (step parse_eid host local_eid dec_bundle dec_send st (ERegister e) st' ->
       (e ∈ map ag_eid (a_agents st) -> st' = st) /\
       (e ∉ map ag_eid (a_agents st) -> find_agent e (a_agents st') = Some (Agent e [] None)) /\
       forall e', e' <> e -> find_agent e' (a_agents st') = find_agent e' (a_agents st)) /\
    (step parse_eid host local_eid dec_bundle dec_send st (EUnregister e) st' ->
       find_agent e (a_agents st') = None /\ a_sessions st' = a_sessions st /\
       forall e', e' <> e -> find_agent e' (a_agents st') = find_agent e' (a_agents st)).
Proof.
  intros pe h le db ds tr st Hr. assert (Hd : NoDup (map ag_eid (a_agents st))). { eapply run_nodup; [done|]. constructor. }
  split; [done|]. intros e st'. split; intros H; inversion H; subst; cbn [a_agents upd].
  - split; [|split].
    + intros Hk%known_elem. unfold upd, register. rewrite Hk. by destruct st.
    + intros Hn. rewrite register_find. apply find_none in Hn. rewrite Hn. by rewrite decide_True.
    + intros e' Hne. rewrite register_find. destruct (find_agent e' (a_agents st)); [done|]. by rewrite decide_False.
  - split; [by apply unregister_gone|]. split; [done|]. intros e' Hne. by apply unregister_find_ne.
Qed.
Print Assumptions C44_registration.

(** ** C45 *)
(** the text asks to subscribe to [e], by its address or by its name *)
Definition by_address (parse_eid : string -> option eid) (t : string) (e : eid) : Prop :=
  exists a, trim t = "/subscribe " +:+ a /\ parse_eid a = Some e.
Definition by_name (parse_eid local_eid : string -> option eid) (t : string) (e : eid) : Prop :=
  exists a, trim t = "/subscribe " +:+ a /\ parse_eid a = None /\ local_eid a = Some e.
(** nobody else polls, takes over or removes the endpoint, and the client stays
    and does not unsubscribe from it *)
Definition alone (e : eid) (i : nat) (v : ev) : Prop :=
  match v with
  | EUnregister e' | EPoll e' _ => e' <> e
  | EWork j (WPop e') _ | EWork j (WSet e') _ => j = i \/ e' <> e
  | EWork j (WClear e') _ => e' <> e
  | EClose j => j <> i
  | _ => True
  end.
Definition C45_full : Prop := forall parse_eid host local_eid dec_bundle dec_send tr0 st i s e a t tr st' s',
  let run := run parse_eid host local_eid dec_bundle dec_send in
  run start tr0 st -> a_sessions st !! i = Some s -> at_rest s -> find_agent e (a_agents st) = Some a ->
  by_address parse_eid t e \/ by_name parse_eid local_eid t e ->
  run st (EMsg i (MText t) :: tr) st' -> Forall (alone e i) tr ->
  (forall b, b ∈ ag_queue a ++ delivered e tr -> payload_of b <> None) ->
  a_sessions st' !! i = Some s' -> at_rest s' ->
  written e i tr = ag_queue a ++ delivered e tr.
(** Full for clients that subscribe by address to an endpoint with at most one
    stored bundle and keep up: each later delivery finds room in their channel.
    Missing: endpoints with more stored bundles, subscription by name, and
    deliveries between the request and its execution. *)
Theorem C45_subscriber_order_partial : forall parse_eid host local_eid dec_bundle dec_send tr0 st i s e a t tr st' s',
  let run := run parse_eid host local_eid dec_bundle dec_send in
  run start tr0 st -> a_sessions st !! i = Some s -> at_rest s -> find_agent e (a_agents st) = Some a ->
  by_address parse_eid t e -> (length (ag_queue a) <= 1)%nat ->
  run st (EMsg i (MText t) :: tr) st' -> Forall (alone e i) tr ->
  (forall b f, EDeliver b f ∈ tr -> b_dst b = e -> f = Passed i) ->
  (forall b, b ∈ ag_queue a ++ delivered e tr -> payload_of b <> None) ->
  a_sessions st' !! i = Some s' -> at_rest s' ->
  written e i tr = ag_queue a ++ delivered e tr.
Proof.
  intros pe h le db ds tr0 st i s e a t tr st' s' run0 Hr0 Hs (Ho & Hj & Hh & Hc) Ha (x & Hx & Hp) Hl Hr Hal Hpass Hpay Hs' (Ho' & Hj' & Hh' & Hc').
  inversion Hr as [|? ? st1 ? ? Hstep Hr1]; subst. inversion Hstep; subst. rewrite Hs in H1. injection H1 as <-.
  assert (Hd : NoDup (map ag_eid (a_agents st))). { eapply run_nodup; [exact Hr0|]. constructor. }
  assert (Ht : tidy st). { eapply run_tidy; [exact Hr0|constructor|]. intros ? ? ?. done. }
  assert (Hf : faithful s). { eapply run_faithful; [exact Hr0| |exact Hs]. intros ? ?. done. }
  assert (Hheld : ws_held s = []). { apply shape_idle; [by destruct Hf|done]. }
  set (s1 := on_text pe h le (a_agents st) s t) in *.
  assert (Es1 : s1 = with_job (with_subs s (Some (default [] (ws_subs s)))) [WSet e; WIns e; WReply "200 subscribed"; WFetch]).
  { unfold s1, on_text. rewrite Hx. change (split_space ("/subscribe " +:+ x) "") with ("/subscribe", Some x). cbn [is_command].
    change (is_command ("/subscribe " +:+ x)) with true. cbv iota. rewrite !bool_decide_false by done. rewrite bool_decide_true by done.
    rewrite Hp. rewrite known_find, Ha. done. }
  destruct (order_run pe h le db ds e i _ _ _ Hr1 (ag_queue a) [] [] s1 (ag_queue a)) as (s2 & qq & HO).
  - apply Forall_forall. intros v Hv. rewrite Forall_forall in Hal. specialize (Hal v Hv).
    destruct v as [| |b f| | | |j [] r| | | |]; cbn in *; try done; [by apply Hpass|by right].
  - intros b Hb. apply Hpay, elem_of_app. right. exact Hb.
  - split.
    + cbn. by rewrite list_lookup_insert by (by eapply lookup_lt_Some).
    + by rewrite Es1.
    + unfold queue_of. cbn [a_agents upd set_session]. by rewrite Ha.
    + done.
    + rewrite Es1. unfold inbox. cbn. rewrite Hheld, Hh, Hc. cbn. done.
    + intros b Hb. apply Hpay. rewrite app_nil_r in Hb. apply elem_of_app. by left.
    + rewrite Es1. left. exists [WSet e; WIns e; WReply "200 subscribed"], true. split; [done|]. split; [|done]. repeat constructor.
    + intros _. rewrite Es1. left. by eexists.
    + exact Ht.
    + exact Hd.
  - destruct HO as [O1 O2 O3 O4 O5 O6 O7 O8 O9 O10]. rewrite Hs' in O1. injection O1 as <-.
    assert (qq = []) as ->. { destruct qq; [done|]. exfalso. by apply (pending_busy e s'); [apply O8|]. }
    assert (ws_held s' = []) as E by (by apply shape_idle). unfold inbox in O5. rewrite E, Hh', Hc' in O5. cbn in O5.
    rewrite app_nil_r in O5. change (delivered e tr) with (flat_map (delivered1 e) tr). rewrite <- O5. unfold written. apply flat_map_ext. intros v. unfold sent1.
    destruct v as [| | | | | |j [] [b|]|j b|j b| |]; try done; cbn; repeat (case_bool_decide || case_decide); try done; cbn; by repeat case_decide.
Qed.
Print Assumptions C45_subscriber_order_partial.

(** *** A small daemon for the cases *)
Definition pe0 (s : string) : option eid := if bool_decide (s = "dtn://n/a") then Some (Dtn "n" "a") else None.
Definition le0 (s : string) : option eid := if bool_decide (s = "a") then Some (Dtn "n" "a") else None.
Definition db0 (d : list N) : option bundle := None.
Definition ds0 (f : fmt) (d : list N) : option send_data :=
  match d with
  | [1] => Some (SendData "dtn://n/a" "dtn://n/a" true 5000 [7; 8])
  | [2] => Some (SendData "nonsense" "dtn://n/a" true 5000 [7; 8])
  | _ => None
  end.
Notation step0 := (step pe0 (Dtn "n" "") le0 db0 ds0).
Notation run0 := (run pe0 (Dtn "n" "") le0 db0 ds0).
Definition A : eid := Dtn "n" "a".
Definition B (k : N) : bundle :=
  Bundle (BFlags false false false false false false false) A (Dtn "m" "x") (Dtn "m" "x") k 0 1000 0 0
    [Block PAYLOAD_BLOCK 1 (KFlags false false false false) (CData [k])].
Ltac ok := first [reflexivity | done].
Ltac go c := eapply run_step; [eapply c; ok|]; cbn.
Ltac fin := apply run_nil.

Definition fill2 : list ev := [ERegister A; EDeliver (B 1) Queued; EDeliver (B 2) Queued; EOpen].
Definition st2 : apps := AppState [Agent A [B 1; B 2] None] [new_session] [].
Lemma fill2_run : run0 start fill2 st2.
Proof. unfold fill2, st2, start. go s_register. go s_queue. go s_queue. go s_open. fin. Qed.
Definition sub2 : list ev :=
  [EWork 0 (WSet A) None; EWork 0 (WIns A) None; EWork 0 (WReply "200 subscribed") None; EWork 0 WFetch None;
   EWork 0 (WPop A) (Some (B 1)); EWork 0 WFlush (Some (B 1)); EWork 0 WFlush None].
Definition shown (b : bundle) (k : N) : wsout :=
  OData FJson (RecvData (bid b) "dtn://m/x" "dtn://n/a" k 0 1000 [k]).
Definition ses2 : session := Session true true [] None (MData FJson) (Some [A]) [] [] [OText "200 subscribed"; shown (B 1) 1].
Lemma sub2_run : run0 st2 (EMsg 0 (MText "/subscribe dtn://n/a") :: sub2) (AppState [Agent A [B 2] (Some 0%nat)] [ses2] []).
Proof.
  unfold sub2, st2. go s_text. go s_set. go s_ins. go s_reply.
  eapply run_step; [eapply (s_fetch _ _ _ _ _ _ 0%nat _ [A]); ok|]; cbn. go s_pop. go s_flush. go s_flushed. fin.
Qed.
(** Two stored bundles: the client gets the first, the second stays. *)
Theorem C45_subscriber_order_refuted : ~ C45_full.
Proof.
  intros H.
  assert (E : written A 0 sub2 = [B 1; B 2] ++ delivered A sub2); [|vm_compute in E; discriminate E].
  eapply (H pe0 (Dtn "n" "") le0 db0 ds0 fill2 st2 0%nat new_session A (Agent A [B 1; B 2] None) "/subscribe dtn://n/a" sub2
    (AppState [Agent A [B 2] (Some 0%nat)] [ses2] []) ses2 fill2_run eq_refl); [by repeat split|done| |exact sub2_run| | |done|by repeat split].
  - left. by exists "dtn://n/a".
  - repeat constructor; by left.
  - cbn. intros b. rewrite !elem_of_cons, elem_of_nil. by intros [-> |[-> |[]]].
Qed.
Print Assumptions C45_subscriber_order_refuted.
(** One stored bundle and one that arrives later, both in order. *)
Definition fill1 : list ev := [ERegister A; EDeliver (B 1) Queued; EOpen].
Definition sub1 : list ev :=
  [EWork 0 (WSet A) None; EDeliver (B 2) (Passed 0); EWork 0 (WIns A) None; EWork 0 (WReply "200 subscribed") None; ETake 0 (B 2); EWork 0 WFetch None;
   EWork 0 (WPop A) (Some (B 1)); EWork 0 WFlush (Some (B 1)); EWork 0 WFlush None; EHand 0 (B 2)].
Definition st1 : apps := AppState [Agent A [B 1] None] [new_session] [].
Example C45_case : written A 0 sub1 = [B 1; B 2] /\
  exists s', run0 start fill1 st1 /\ run0 st1 (EMsg 0 (MText "/subscribe dtn://n/a") :: sub1) (AppState [Agent A [] (Some 0%nat)] [s'] []) /\ at_rest s' /\
    Forall (alone A 0) sub1 /\ ws_out s' = [OText "200 subscribed"; shown (B 1) 1; shown (B 2) 2].
Proof.
  split; [done|]. exists (Session true true [] None (MData FJson) (Some [A]) [] [] [OText "200 subscribed"; shown (B 1) 1; shown (B 2) 2]).
  split; [unfold fill1, start; go s_register; go s_queue; go s_open; fin|]. split; [|split; [by repeat split|split; [repeat constructor; by left|done]]].
  unfold sub1. go s_text. go s_set. go s_pass. go s_ins. go s_reply. go s_take.
  eapply run_step; [eapply (s_fetch _ _ _ _ _ _ 0%nat _ [A]); ok|]; cbn. go s_pop. go s_flush. go s_flushed. go s_hand. fin.
Qed.
Example C43_case : find_agent A (a_agents st2) = Some (Agent A [B 1; B 2] None) /\ stored A fill2 = [B 1; B 2] /\ polled A sub2 = [B 1] /\
  room (AppState [Agent A [] (Some 0%nat)] [new_session] []) (Agent A [] (Some 0%nat)) 0.
Proof. split; [done|]. split; [done|]. split; [done|]. split; [done|]. exists new_session. split; [done|]. split; [done|]. cbn. lia. Qed.
Example C44_case : run0 start fill2 st2 /\ step0 st2 (ERegister A) st2 /\ step0 st2 (EUnregister A) (AppState [] [new_session] []).
Proof. split; [apply fill2_run|]. split; [exact (s_register _ _ _ _ _ st2 A)|exact (s_unregister _ _ _ _ _ st2 A)]. Qed.

(** ** C69 *)
(** A bundle given to the session of a client is written to the client, waits
    for it, or can still be polled. *)
Definition C69_full : Prop := forall parse_eid host local_eid dec_bundle dec_send tr st i s b,
  run parse_eid host local_eid dec_bundle dec_send start tr st -> a_sessions st !! i = Some s ->
  b ∈ passed i tr ++ fetched i tr -> payload_of b <> None ->
  b ∈ wrote_passed i tr ++ wrote_fetched i tr \/ b ∈ inbox_of s ++ (ws_held s).*1 \/
  exists e a, find_agent e (a_agents st) = Some a /\ b ∈ ag_queue a.
Definition lose : list ev :=
  [ERegister A; EOpen; EMsg 0 (MText "/subscribe dtn://n/a"); EWork 0 (WSet A) None; EWork 0 (WIns A) None;
   EDeliver (B 1) (Passed 0); EClose 0; EWork 0 (WClear A) None; EDrop 0].
(** The client disconnects while a bundle is in its channel. *)
Theorem C69_given_bundles_kept_refuted : ~ C69_full.
Proof.
  intros H.
  destruct (H pe0 (Dtn "n" "") le0 db0 ds0 lose (AppState [Agent A [] None] [Session false false [] None (MData FJson) (Some [A]) [] [] []] [])
    0%nat (Session false false [] None (MData FJson) (Some [A]) [] [] []) (B 1)) as [Hx|[Hx|(e & a & Hf & Hx)]].
  - unfold lose, start. go s_register. go s_open. go s_text. go s_set. go s_ins. go s_pass.
    eapply run_step; [eapply (s_close _ _ _ _ _ _ 0%nat _ [A]); ok|]; cbn. go s_clear. go s_drop. fin.
  - done.
  - cbn. by left.
  - done.
  - cbn in Hx. by apply elem_of_nil in Hx.
  - cbn in Hx. by apply elem_of_nil in Hx.
  - apply find_eid in Hf as [_ Hf]. cbn in Hf. apply elem_of_list_singleton in Hf as ->. by apply elem_of_nil in Hx.
Qed.
Print Assumptions C69_given_bundles_kept_refuted.
(** Full while the client is connected. Missing: the moment it disconnects, and
    bundles without payload. *)
Theorem C69_given_bundles_kept_partial : forall parse_eid host local_eid dec_bundle dec_send tr0 st i tr st',
  let run := run parse_eid host local_eid dec_bundle dec_send in
  run start tr0 st -> a_sessions st !! i = Some new_session -> run st tr st' -> EClose i ∉ tr ->
  (forall b, b ∈ fetched i tr -> payload_of b <> None) ->
  exists s', a_sessions st' !! i = Some s' /\ ws_open s' = true /\
    passed i tr = wrote_passed i tr ++ inbox_of s' /\ fetched i tr = wrote_fetched i tr ++ (ws_held s').*1 /\
    (ws_job s' = [] -> fetched i tr = wrote_fetched i tr).
Proof.
  intros pe h le db ds tr0 st i tr st' run1 Hr0 Hi Hr Hn Hp.
  destruct (run_inbox pe h le db ds _ _ _ i _ Hr Hi) as (s1 & H1 & E1). { by eapply run_no_drop. }
  destruct (run_held pe h le db ds _ _ _ i _ Hr Hi Hn Hp) as (s2 & H2 & E2 & O2). rewrite H1 in H2. injection H2 as <-.
  exists s1. split; [done|]. split; [by apply O2|]. split; [exact E1|]. split; [exact E2|]. intros Hj. cbn in E2.
  assert (F : faithful s1). { eapply run_faithful; [exact Hr| |exact H1]. eapply run_faithful; [exact Hr0|]. intros ? ?. done. }
  destruct F as [_ F]. apply shape_idle in F; [|done]. rewrite F in E2. cbn in E2. rewrite app_nil_r in E2. exact E2.
Qed.
Print Assumptions C69_given_bundles_kept_partial.
Example C69_case : exists st' s', run0 start fill1 st1 /\ a_sessions st1 !! 0%nat = Some new_session /\
  run0 st1 (EMsg 0 (MText "/subscribe dtn://n/a") :: sub1) st' /\ a_sessions st' !! 0%nat = Some s' /\
  passed 0 sub1 = [B 2] /\ fetched 0 sub1 = [B 1] /\ EClose 0 ∉ sub1.
Proof.
  destruct C45_case as (_ & s' & H1 & H2 & _). exists (AppState [Agent A [] (Some 0%nat)] [s'] []), s'.
  split; [done|]. split; [done|]. split; [done|]. split; [done|]. split; [done|]. split; [done|]. unfold sub1. rewrite !not_elem_of_cons. by repeat split; try apply not_elem_of_nil.
Qed.

(** ** C70 *)
Definition names (parse_eid local_eid : string -> option eid) (cmd t : string) (e : eid) : Prop :=
  exists a, trim t = cmd +:+ " " +:+ a /\ (parse_eid a = Some e \/ local_eid a = Some e).
(** client [i] stays and does not unsubscribe from [e], the endpoint is not
    removed, and no other client subscribes to it *)
Definition keeps (pe le : string -> option eid) (e : eid) (i : nat) (v : ev) : Prop :=
  match v with
  | EUnregister e' => e' <> e
  | EMsg j (MText t) => if decide (j = i) then ~ names pe le "/unsubscribe" t e else ~ names pe le "/subscribe" t e
  | EClose j => j <> i
  | _ => True
  end.
(** Then the next bundle for [e] goes to client [i] (or waits if its channel is
    full). *)
Definition C70_full : Prop := forall parse_eid host local_eid dec_bundle dec_send tr0 st i s e a tr st' b f st'',
  let run := run parse_eid host local_eid dec_bundle dec_send in
  run start tr0 st -> a_sessions st !! i = Some s -> at_rest s -> e ∈ default [] (ws_subs s) ->
  find_agent e (a_agents st) = Some a -> ag_sub a = Some i ->
  run st tr st' -> Forall (keeps parse_eid local_eid e i) tr ->
  step parse_eid host local_eid dec_bundle dec_send st' (EDeliver b f) st'' -> b_dst b = e ->
  f = Passed i \/ (f = Queued /\ exists s', a_sessions st' !! i = Some s' /\ (32 <= length (ws_chan s'))%nat).
Definition two : list ev :=
  [ERegister A; EOpen; EOpen;
   EMsg 0 (MText "/subscribe dtn://n/a"); EWork 0 (WSet A) None; EWork 0 (WIns A) None; EWork 0 (WReply "200 subscribed") None; EWork 0 WFetch None; EWork 0 (WPop A) None; EWork 0 WFlush None;
   EMsg 1 (MText "/subscribe dtn://n/a"); EWork 1 (WSet A) None; EWork 1 (WIns A) None; EWork 1 (WReply "200 subscribed") None; EWork 1 WFetch None; EWork 1 (WPop A) None; EWork 1 WFlush None].
Definition sesT : session := Session true true [] None (MData FJson) (Some [A]) [] [] [OText "200 subscribed"].
Definition sesX : session := Session false true [] None (MData FJson) (Some [A]) [] [] [OText "200 subscribed"].
Lemma two_run : run0 start two (AppState [Agent A [] (Some 1%nat)] [sesT; sesT] []).
Proof.
  unfold two, start. go s_register. go s_open. go s_open.
  go s_text. go s_set. go s_ins. go s_reply. eapply run_step; [eapply (s_fetch _ _ _ _ _ _ 0%nat _ [A]); ok|]; cbn. go s_pop. go s_flushed.
  go s_text. go s_set. go s_ins. go s_reply. eapply run_step; [eapply (s_fetch _ _ _ _ _ _ 1%nat _ [A]); ok|]; cbn. go s_pop. go s_flushed. fin.
Qed.
(** Another client that had subscribed before disconnects. *)
Theorem C70_subscription_stays_refuted : ~ C70_full.
Proof.
  intros H.
  destruct (H pe0 (Dtn "n" "") le0 db0 ds0 two _ 1%nat sesT A (Agent A [] (Some 1%nat)) [EClose 0; EWork 0 (WClear A) None]
    (AppState [Agent A [] None] [sesX; sesT] []) (B 1) Queued (AppState [Agent A [B 1] None] [sesX; sesT] []) two_run) as [?|[_ (s & Hs & Hl)]]; try done.
  - cbn. by left.
  - eapply run_step; [eapply (s_close _ _ _ _ _ _ 0%nat _ [A]); ok|]; cbn. go s_clear. fin.
  - by repeat constructor.
  - exact (s_queue pe0 (Dtn "n" "") le0 db0 ds0 (AppState [Agent A [] None] [sesX; sesT] []) (B 1) (Agent A [] None) eq_refl ltac:(done)).
  - cbn in Hs. injection Hs as <-. cbn in Hl. lia.
Qed.
Print Assumptions C70_subscription_stays_refuted.
(** no client but [i] ever names [e] in a command *)
Definition private (pe le : string -> option eid) (e : eid) (i : nat) (v : ev) : Prop :=
  match v with EMsg j (MText t) => j <> i -> ~ names pe le "/subscribe" t e /\ ~ names pe le "/unsubscribe" t e | _ => True end.
(** Full for an endpoint that no other client names in a command, now or before.
    Missing: clients that subscribed before, and clients that unsubscribe from
    an endpoint they are not subscribed to. *)
Theorem C70_subscription_stays_partial : forall parse_eid host local_eid dec_bundle dec_send tr0 st i s e a tr st' b f st'',
  let run := run parse_eid host local_eid dec_bundle dec_send in
  run start tr0 st -> a_sessions st !! i = Some s -> at_rest s ->
  find_agent e (a_agents st) = Some a -> ag_sub a = Some i ->
  run st tr st' -> Forall (keeps parse_eid local_eid e i) tr -> Forall (private parse_eid local_eid e i) (tr0 ++ tr) ->
  step parse_eid host local_eid dec_bundle dec_send st' (EDeliver b f) st'' -> b_dst b = e ->
  f = Passed i \/ (f = Queued /\ exists s', a_sessions st' !! i = Some s' /\ (32 <= length (ws_chan s'))%nat).
Proof.
  intros pe h le db ds tr0 st i s e a tr st' b f st'' run1 Hr0 Hs (Ho & Hj & _) Ha Hi Hr Hk Hp Hst He.
  apply Forall_app in Hp as [Hp0 Hp].
  assert (Hot : others e i st). { eapply run_others; [exact Hr0|exact Hp0|]. by split. }
  assert (Hu : subscribed e i st').
  { eapply run_subscribed; [exact Hr| |].
    - apply Forall_forall. intros v Hv. rewrite Forall_forall in Hk, Hp. specialize (Hk v Hv). specialize (Hp v Hv).
      destruct v as [| | | | |j []| | | | |]; try done. cbn in *. case_decide; [done|]. by apply Hp.
    - destruct Hot as [Hot Hrx]. split; [by exists a|exists s; split; [done|split; [done|split; [by eapply Hrx|]]]|].
      + rewrite Hj. apply not_elem_of_nil.
      + intros j sj Hne Hsj. by apply (Hot j sj). }
  destruct Hu as [(a' & Ha' & Hi') (s' & Hs' & Ho' & Hx' & _) _].
  destruct (C43_each_delivery pe h le db ds st' b) as [_ Hd]. specialize (Hd _ _ Hst). rewrite He, Ha' in Hd. destruct Hd as (D1 & D2 & _).
  destruct (decide (length (ws_chan s') < 32)%nat) as [Hl|Hl].
  - left. apply D1. split; [done|]. by exists s'.
  - right. split; [|exists s'; split; [done|lia]]. apply D2. intros k (Hk' & s2 & Hs2 & _ & Hl2). rewrite Hi' in Hk'. injection Hk' as <-.
    rewrite Hs' in Hs2. injection Hs2 as <-. lia.
Qed.
Print Assumptions C70_subscription_stays_partial.
Example C70_case : Forall (private pe0 le0 A 0) (fill1 ++ EMsg 0 (MText "/subscribe dtn://n/a") :: sub1 ++ [EOpen; EMsg 1 (MText "/unsubscribe dtn://n/b"); EClose 1]) /\
  Forall (keeps pe0 le0 A 0) [EOpen; EMsg 1 (MText "/unsubscribe dtn://n/b"); EClose 1].
Proof.
  assert (Hu : ~ names pe0 le0 "/unsubscribe" "/unsubscribe dtn://n/b" A).
  { intros (a & E & Hn). change (trim "/unsubscribe dtn://n/b") with "/unsubscribe dtn://n/b" in E. cbn in E. injection E as <-. by destruct Hn. }
  assert (Hs : ~ names pe0 le0 "/subscribe" "/unsubscribe dtn://n/b" A).
  { intros (a & E & Hn). change (trim "/unsubscribe dtn://n/b") with "/unsubscribe dtn://n/b" in E. discriminate E. }
  split; repeat constructor; done.
Qed.

(** ** C71 *)
(** what a request to send data asks for; the creation time is the node's *)
Definition as_asked (parse_eid : string -> option eid) (r : send_data) (b : bundle) : Prop :=
  parse_eid (sd_src r) = Some (b_src b) /\ parse_eid (sd_dst r) = Some (b_dst b) /\ b_rpt b = b_src b /\ b_life b = sd_life r /\
  payload_of b = Some (sd_data r) /\ length (b_blocks b) = 1%nat /\
  b_flags b = BFlags false false false false (sd_report r) false false.
(** A message in bundle mode submits exactly the bundle it encodes, one in data
    mode exactly one bundle as asked if the request can be read and both
    addresses are valid, and otherwise nothing; no other event submits. *)
Theorem C71_websocket_send : forall parse_eid host local_eid dec_bundle dec_send st v st',
  step parse_eid host local_eid dec_bundle dec_send st v st' ->
  match v with
  | EMsg i (MBin d) => exists s, a_sessions st !! i = Some s /\
      match ws_mode s with
      | MBundle => a_sent st' = a_sent st ++ option_list (dec_bundle d)
      | MData f =>
          match dec_send f d with
          | None => a_sent st' = a_sent st
          | Some r =>
              if decide (is_Some (parse_eid (sd_src r)) /\ is_Some (parse_eid (sd_dst r)))
              then exists b, a_sent st' = a_sent st ++ [b] /\ as_asked parse_eid r b
              else a_sent st' = a_sent st
          end
      end
  | _ => a_sent st' = a_sent st
  end.
Proof.
  intros pe h le db ds st v st' H. inversion H as [| | | | | | | |? i s d cts s' ob Hs Ho Hj Hb| | | | | | | | | | | | | |]; subst; try done.
  exists s. split; [done|]. cbn. unfold on_binary in Hb. destruct (ws_mode s).
  - destruct (db d); by injection Hb as <- <-.
  - destruct (ds f d) as [r|]; [|injection Hb as <- <-; cbn; by rewrite app_nil_r]. unfold bundle_of in Hb.
    destruct (pe (sd_dst r)) as [dd|] eqn:Ed.
    + destruct (pe (sd_src r)) as [ss|] eqn:Ess; injection Hb as <- <-.
      * rewrite decide_True by eauto. eexists. split; [done|]. by repeat split.
      * rewrite decide_False; [cbn; by rewrite app_nil_r|]. by intros [[? ?] _].
    + injection Hb as <- <-. rewrite decide_False; [cbn; by rewrite app_nil_r|]. by intros [_ [? ?]].
Qed.
Print Assumptions C71_websocket_send.
Example C71_case : ds0 FJson [1] = Some (SendData "dtn://n/a" "dtn://n/a" true 5000 [7; 8]) /\
  exists b s', step0 st2 (EMsg 0 (MBin [1])) (AppState (a_agents st2) [s'] [b]) /\ as_asked pe0 (SendData "dtn://n/a" "dtn://n/a" true 5000 [7; 8]) b.
Proof.
  split; [done|]. eexists _, _. split.
  - exact (s_bin pe0 (Dtn "n" "") le0 db0 ds0 st2 0%nat new_session [1] (9, 0) _ _ eq_refl eq_refl eq_refl eq_refl).
  - by repeat split.
Qed.

(** ** C72 *)
(** how a bundle looks in a mode *)
Inductive looks : mode -> bundle -> wsout -> Prop :=
| looks_bundle b : looks MBundle b (OBundle b)
| looks_data f b r :
    rd_bid r = bid b -> rd_src r = eid_string (b_src b) -> rd_dst r = eid_string (b_dst b) -> rd_time r = b_time b ->
    rd_seq r = b_seq b -> rd_life r = b_life b -> payload_of b = Some (rd_data r) ->
    looks (MData f) b (OData f r).
Lemma render_looks m b o : render m b = Some o <-> looks m b o.
Proof.
  split.
  - destruct m as [|f]; cbn; [intros [= <-]; constructor|]. destruct (payload_of b) eqn:E; [|done]. intros [= <-]. by constructor.
  - destruct 1 as [|f b r E1 E2 E3 E4 E5 E6 E7]; [done|]. cbn. rewrite E7. destruct r. cbn in *. by subst.
Qed.
(** In every history each message written to a client is, in order: one for each
    bundle handed over, showing that bundle in the mode the client is in then;
    one for each reply; one for each answered ping. Nothing else is written, and
    nothing that was written changes. *)
Theorem C72_websocket_shows : forall parse_eid host local_eid dec_bundle dec_send tr st v st' i s,
  run parse_eid host local_eid dec_bundle dec_send start tr st ->
  step parse_eid host local_eid dec_bundle dec_send st v st' -> a_sessions st !! i = Some s ->
  exists s' new, a_sessions st' !! i = Some s' /\ ws_out s' = ws_out s ++ new /\
    match v with
    | EHand j b | EWork j WFlush (Some b) =>
        if decide (j = i) then (forall o, new = [o] <-> looks (ws_mode s) b o) /\ (new = [] -> ws_mode s <> MBundle /\ payload_of b = None) else new = []
    | EWork j (WReply t) _ => new = if decide (j = i) then [OText t] else []
    | EMsg j MPing => new = if decide (j = i) then [OPing] else []
    | _ => new = []
    end.
Proof.
  intros pe h le db ds tr st v st' i s Hr Hs Hi.
  assert (F : all_faithful st). { eapply run_faithful; [exact Hr|]. by intros ? ?. }
  destruct (step_wrote pe h le db ds _ _ _ Hs F) as [_ Hw]. destruct (Hw _ _ Hi) as (s' & Hs' & E).
  exists s', (wrote1 i (ws_mode s) v). split; [done|]. split; [done|].
  assert (Hb : forall b, (forall o, option_list (render (ws_mode s) b) = [o] <-> looks (ws_mode s) b o) /\
     (option_list (render (ws_mode s) b) = [] -> ws_mode s <> MBundle /\ payload_of b = None)).
  { intros b. split.
    - intros o. rewrite <- render_looks. destruct (render (ws_mode s) b); cbn; split; congruence.
    - unfold render. destruct (ws_mode s); [done|]. by destruct (payload_of b). }
  destruct v as [| | | | |j []|j [] [b|]|j b|j b| |]; try done; cbn; case_decide; try done; apply Hb.
Qed.
Print Assumptions C72_websocket_shows.
Example C72_case : looks (MData FJson) (B 1) (shown (B 1) 1) /\ looks MBundle (B 1) (OBundle (B 1)) /\
  step0 (AppState [] [Session true true [] (Some (B 1)) (MData FJson) None [] [] []] []) (EHand 0 (B 1))
        (AppState [] [Session true true [] None (MData FJson) None [] [] [shown (B 1) 1]] []).
Proof.
  split; [by constructor|]. split; [by constructor|].
  exact (s_hand pe0 (Dtn "n" "") le0 db0 ds0 (AppState [] [Session true true [] (Some (B 1)) (MData FJson) None [] [] []] []) 0%nat _ (B 1) eq_refl eq_refl eq_refl eq_refl).
Qed.

(** The mode a client is in is the one its last command chose; a new client gets
    JSON. *)
Definition said (w t : string) : bool := bool_decide (trim t = w) || String.prefix (w +:+ " ") (trim t).
Definition chose (t : string) : option mode :=
  if said "/bundle" t then Some MBundle else if said "/data" t then Some (MData FCbor) else if said "/json" t then Some (MData FJson) else None.
Definition chosen (i : nat) (tr : list ev) : mode :=
  fold_left (fun m v => match v with EMsg j (MText t) => if decide (j = i) then default m (chose t) else m | _ => m end) tr (MData FJson).
Lemma prefix_split w s : String.prefix w s = true -> exists r, s = w +:+ r.
Proof.
  revert s. induction w as [|c w IH]; intros s H; [by exists s|]. destruct s as [|d s]; [done|]. cbn in H.
  destruct (Ascii.ascii_dec c d) as [->|]; [|done]. destruct (IH s H) as [r ->]. by exists r.
Qed.
Lemma said_word w t c a : split_space w "" = (w, None) -> (forall r, split_space (w +:+ " " +:+ r) "" = (w, Some r)) -> (forall r, String.prefix (w +:+ " ") (w +:+ " " +:+ r) = true) ->
  split_space (trim t) "" = (c, a) -> said w t = bool_decide (c = w).
Proof.
  intros H1 H2 H3 E. unfold said. destruct (bool_decide (trim t = w)) eqn:Eb; cbn.
  - apply bool_decide_eq_true in Eb. rewrite Eb, H1 in E. injection E as <- _. by rewrite bool_decide_eq_true_2.
  - apply bool_decide_eq_false in Eb. destruct (String.prefix (w +:+ " ") (trim t)) eqn:Ep.
    + apply prefix_split in Ep as [r Er]. rewrite Er, append_assoc, H2 in E. injection E as <- _. by rewrite bool_decide_eq_true_2.
    + symmetry. apply bool_decide_eq_false. intros ->. destruct a as [a|].
      * apply split_space_arg in E. change (trim t = w +:+ " " +:+ a) in E. rewrite E, H3 in Ep. done.
      * apply split_space_none in E. done.
Qed.
Lemma chose_word t c a : split_space (trim t) "" = (c, a) ->
  chose t = if bool_decide (c = "/bundle") then Some MBundle else if bool_decide (c = "/data") then Some (MData FCbor) else if bool_decide (c = "/json") then Some (MData FJson) else None.
Proof.
  intros E. unfold chose.
  rewrite (said_word "/bundle" t c a), (said_word "/data" t c a), (said_word "/json" t c a); try done; try (by intros []); try exact E.
Qed.
Lemma on_text_mode pe h le l s t : ws_mode (on_text pe h le l s t) = default (ws_mode s) (chose t).
Proof.
  unfold on_text. destruct (split_space (trim t) "") as [c a] eqn:E. rewrite (chose_word t c a E).
  destruct (is_command (trim t)) eqn:Ec.
  - destruct (bool_decide (c = "/node")) eqn:En; [apply bool_decide_eq_true in En; by subst|].
    destruct (bool_decide (c = "/bundle")); [done|]. destruct (bool_decide (c = "/data")); [done|]. destruct (bool_decide (c = "/json")); [done|]. cbn [default].
    repeat case_match; done.
  - assert (G : forall w, is_command w = true -> c = w -> False).
    { intros w Hw ->. assert (exists r, trim t = w +:+ r) as [r Er].
      { destruct a as [a|]; [apply split_space_arg in E; by exists (" " +:+ a)|]. apply split_space_none in E. exists "". change (trim t = w) in E. rewrite E. clear. induction w as [|x w IH]; [done|]. change (String x w = String x (w +:+ "")). by rewrite <- IH. }
      rewrite Er in Ec. destruct w as [|x w]; [done|]. change (is_command (String x w +:+ r)) with (is_command (String x w)) in Ec. congruence. }
    rewrite !bool_decide_eq_false_2; [done|intros Hc; by eapply G; [|exact Hc]..].
Qed.
Theorem C72_mode_chosen : forall parse_eid host local_eid dec_bundle dec_send tr st i s,
  run parse_eid host local_eid dec_bundle dec_send start tr st -> a_sessions st !! i = Some s -> ws_mode s = chosen i tr.
Proof.
  intros pe h le db ds tr st i s Hr Hs.
  set (F := fun m v => match v with EMsg j (MText t) => if decide (j = i) then default m (chose t) else m | _ => m end).
  set (M := fun st : apps => match a_sessions st !! i with Some s => ws_mode s | None => MData FJson end).
  assert (Hstep : forall st v st', step pe h le db ds st v st' -> M st' = F (M st) v).
  { clear. intros st v st' H.
    assert (I : forall (l : list session) j s s' d, l !! j = Some s -> ws_mode s' = ws_mode s ->
      match <[j := s']> l !! i with Some s => ws_mode s | None => d end = match l !! i with Some s => ws_mode s | None => d end).
    { intros l j s s' d Hj Hm. destruct (decide (j = i)) as [->|Hn]; [rewrite list_lookup_insert by (by eapply lookup_lt_Some); by rewrite Hj|by rewrite list_lookup_insert_ne]. }
    unfold M. destruct H; cbn [a_sessions upd set_session F]; try done; try (by erewrite I).
    - destruct (decide (i < length (a_sessions st))%nat); [by rewrite lookup_app_l|].
      rewrite lookup_app_r by lia. rewrite (lookup_ge_None_2 (a_sessions st)) by lia. destruct (i - length (a_sessions st))%nat as [|[]]; done.
    - destruct (decide (i0 = i)) as [->|Hn]; [|by rewrite list_lookup_insert_ne].
      rewrite list_lookup_insert by (by eapply lookup_lt_Some). rewrite H. apply on_text_mode.
    - eapply I; [done|]. unfold on_binary in H2. repeat case_match; by injection H2 as <- _. }
  assert (HM : forall st0, run pe h le db ds st0 tr st -> M st = fold_left F tr (M st0)).
  { clear Hr. revert Hstep. clear. intros Hstep st0 H. induction H as [|st0 v st1 tr st2 H1 H2 IH]; [done|]. cbn [fold_left]. by rewrite <- (Hstep _ _ _ H1). }
  specialize (HM start Hr). unfold M in HM. rewrite Hs in HM. exact HM.
Qed.
Print Assumptions C72_mode_chosen.
Example C72_mode_case : chosen 0 [EOpen; EMsg 0 (MText " /data"); EMsg 1 (MText "/bundle"); EMsg 0 (MText "/databank"); EMsg 0 (MPing)] = MData FCbor.
Proof. vm_compute. reflexivity. Qed.

(** ** C73 *)
(** a message that asks for something: a command or binary data *)
Definition request (m : wsmsg) : Prop := match m with MText t => exists r, trim t = "/" +:+ r | MBin _ => True | _ => False end.
(** a reply is on its way *)
Definition replying (s : session) : Prop := exists t, WReply t ∈ ws_job s.
Definition C73_full : Prop := forall parse_eid host local_eid dec_bundle dec_send tr st i m st' s,
  run parse_eid host local_eid dec_bundle dec_send start tr st ->
  step parse_eid host local_eid dec_bundle dec_send st (EMsg i m) st' -> request m -> a_sessions st' !! i = Some s -> replying s.
(** A request to send from an address that cannot be read gets no answer. *)
Theorem C73_requests_answered_refuted : ~ C73_full.
Proof.
  intros H.
  destruct (H pe0 (Dtn "n" "") le0 db0 ds0 fill2 st2 0%nat (MBin [2]) st2 new_session fill2_run) as [t Ht]; try done.
  - exact (s_bin pe0 (Dtn "n" "") le0 db0 ds0 st2 0%nat new_session [2] (9, 0) _ _ eq_refl eq_refl eq_refl eq_refl).
  - by apply elem_of_nil in Ht.
Qed.
Print Assumptions C73_requests_answered_refuted.
(** Full for all but the command "/unsubscribe" without an address, and data that
    names an unreadable address. A started reply is written unless the client
    disconnects first. *)
Theorem C73_requests_answered_partial : forall parse_eid host local_eid dec_bundle dec_send tr st i m st' s,
  run parse_eid host local_eid dec_bundle dec_send start tr st ->
  step parse_eid host local_eid dec_bundle dec_send st (EMsg i m) st' -> request m -> a_sessions st' !! i = Some s ->
  (match m with
   | MText t => trim t <> "/unsubscribe"
   | MBin d => forall f r, ws_mode s = MData f -> dec_send f d = Some r -> is_Some (parse_eid (sd_src r)) /\ is_Some (parse_eid (sd_dst r))
   | _ => True
   end) ->
  replying s /\
  forall t o r st'', WReply t ∈ ws_job s -> step parse_eid host local_eid dec_bundle dec_send st' (EWork i o r) st'' ->
    exists s'', a_sessions st'' !! i = Some s'' /\ (WReply t ∈ ws_job s'' \/ OText t ∈ ws_out s'').
Proof.
  intros pe h le db ds tr st i m st' s Hr Hs Hq Hi Hm. split.
  - inversion Hs as [| | | | | | |? ? s0 t Hs0 Ho Hj|? ? s0 d cts s' ob Hs0 Ho Hj Hb| | | | | | | | | | | | | |]; subst; cbn in Hi; try done;
      rewrite list_lookup_insert in Hi by (by eapply lookup_lt_Some); injection Hi as <-.
    + destruct Hq as [x Hx]. unfold on_text, replying.
      assert (is_command (trim t) = true) as ->. { rewrite Hx. done. }
      destruct (split_space (trim t) "") as [c [a|]] eqn:Es.
      * repeat case_match; cbn; try (eexists; rewrite ?elem_of_cons; by eauto 6).
      * repeat case_match; cbn; try (eexists; rewrite ?elem_of_cons; by eauto 6).
        exfalso. apply Hm. apply split_space_none in Es. change (trim t = c) in Es. rewrite Es. by apply bool_decide_eq_true in H3.
    + unfold on_binary in Hb. unfold replying. destruct (ws_mode s0) as [|f] eqn:Em.
      * destruct (db d); injection Hb as <- <-; eexists; by left.
      * destruct (ds f d) as [r|] eqn:Er; [|injection Hb as <- <-; eexists; by left].
        destruct (bundle_of pe cts r) as [b|] eqn:Eb; injection Hb as <- <-; [eexists; by left|]. exfalso.
        destruct (Hm f r Em Er) as [[? E1] [? E2]]. unfold bundle_of in Eb. by rewrite E1, E2 in Eb.
  - intros t o r st'' Ht Hw.
    assert (Hlt : (i < length (a_sessions st'))%nat) by (by eapply lookup_lt_Some).
    inversion Hw; subst; cbn; rewrite Hi in *;
      match goal with Hx : Some _ = Some _, Hj : ws_job _ = _ :: _ |- _ => injection Hx as <-; rewrite Hj in Ht; apply elem_of_cons in Ht as [Ht|Ht] | _ => idtac end;
      try done; rewrite list_lookup_insert by done; eexists; (split; [reflexivity|]); cbn; eauto.
    + injection Ht as ->. right. rewrite elem_of_app. right. by left.
    + left. apply elem_of_app. right. by right.
    + left. match goal with Hj : ws_job _ = _ |- _ => rewrite Hj end. by right.
Qed.
Print Assumptions C73_requests_answered_partial.
Example C73_case : request (MText "  /node ") /\ replying (on_text pe0 (Dtn "n" "") le0 [] new_session "  /node ").
Proof. split; [by exists "node"|]. eexists. by left. Qed.
