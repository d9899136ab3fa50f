(** Proofs about application agents and websocket clients. *)
From stdpp Require Import prelude strings pretty gmap.
From Coq Require Import NArith Lia ZifyBool ZifyN ZifyNat.
From Verif Require Import Core Routing Apps.
Open Scope N_scope.

(** ** The endpoint table *)
Lemma find_alter e f l : (forall a, ag_eid (f a) = ag_eid a) -> find_agent e (alter_agent e f l) = f <$> find_agent e l.
Proof.
  intros Hf. unfold find_agent. induction l as [|a l IH]; [done|]. cbn. case_bool_decide as H; cbn.
  - by rewrite Hf, bool_decide_true.
  - by rewrite bool_decide_false.
Qed.
Lemma find_alter_ne e e' f l : (forall a, ag_eid (f a) = ag_eid a) -> e <> e' -> find_agent e' (alter_agent e f l) = find_agent e' l.
Proof.
  intros Hf Hne. unfold find_agent. induction l as [|a l IH]; [done|]. cbn. case_bool_decide as H; cbn.
  - by rewrite Hf, !bool_decide_false by congruence.
  - by rewrite IH.
Qed.
Lemma alter_eids e f l : (forall a, ag_eid (f a) = ag_eid a) -> map ag_eid (alter_agent e f l) = map ag_eid l.
Proof. intros Hf. induction l as [|a l IH]; [done|]. cbn. case_bool_decide; cbn; congruence. Qed.
Lemma find_none e l : find_agent e l = None <-> e ∉ map ag_eid l.
Proof.
  unfold find_agent. induction l as [|a l IH]; cbn; [split; [by intros _ ?%elem_of_nil|done]|].
  rewrite not_elem_of_cons. case_bool_decide as H.
  - split; [done|]. by intros [? _].
  - rewrite IH. by split; [|intros [_ ?]].
Qed.
Lemma find_eid e l a : find_agent e l = Some a -> ag_eid a = e /\ a ∈ l.
Proof.
  intros H. apply find_some in H as [H1 H2]. apply bool_decide_eq_true in H2. split; [done|]. by apply elem_of_list_In.
Qed.
Lemma known_find e l : known e l = match find_agent e l with Some _ => true | None => false end.
Proof. unfold known, find_agent. induction l as [|a l IH]; [done|]. cbn. by case_bool_decide. Qed.
Lemma known_elem e l : known e l = true <-> e ∈ map ag_eid l.
Proof.
  rewrite known_find. destruct (find_agent e l) as [a|] eqn:E.
  - split; [|done]. intros _. apply find_eid in E as [<- ?]. by apply elem_of_list_fmap_1.
  - apply find_none in E. split; [done|]. by intros ?.
Qed.
Lemma find_app e l1 l2 : find_agent e (l1 ++ l2) = match find_agent e l1 with Some a => Some a | None => find_agent e l2 end.
Proof. unfold find_agent. induction l1 as [|a l IH]; [done|]. cbn. by case_bool_decide. Qed.
Lemma register_find e e' l : find_agent e' (register e l) =
  match find_agent e' l with Some a => Some a | None => if decide (e' = e) then Some (Agent e [] None) else None end.
Proof.
  unfold register. rewrite known_find. destruct (find_agent e l) as [a|] eqn:E.
  - destruct (find_agent e' l) eqn:E'; [done|]. case_decide; [|done]. congruence.
  - rewrite find_app. destruct (find_agent e' l); [done|]. cbn. case_decide; [by rewrite bool_decide_true|by rewrite bool_decide_false].
Qed.
Lemma register_eids e l : map ag_eid (register e l) = if known e l then map ag_eid l else map ag_eid l ++ [e].
Proof. unfold register. destruct (known e l); [done|]. by rewrite map_app. Qed.
Lemma unregister_find_ne e e' l : e <> e' -> find_agent e' (unregister e l) = find_agent e' l.
Proof.
  intros Hne. unfold find_agent. induction l as [|a l IH]; [done|]. cbn. case_bool_decide as H; cbn.
  - by rewrite bool_decide_false by congruence.
  - by rewrite IH.
Qed.
Lemma unregister_sub e l : sublist (map ag_eid (unregister e l)) (map ag_eid l).
Proof. induction l as [|a l IH]; [done|]. cbn. case_bool_decide; [by constructor|]. cbn. by constructor. Qed.
Lemma unregister_gone e l : NoDup (map ag_eid l) -> find_agent e (unregister e l) = None.
Proof.
  induction l as [|a l IH]; [done|]. cbn. intros [H1 H2]%NoDup_cons. case_bool_decide as H.
  - apply find_none. by subst e.
  - cbn. rewrite bool_decide_false by congruence. by apply IH.
Qed.

Lemma nodup_sublist {A} (l l' : list A) : sublist l l' -> NoDup l' -> NoDup l.
Proof.
  induction 1 as [|x l l' H IH|x l l' H IH]; [done| |].
  - intros [H1 H2]%NoDup_cons. apply NoDup_cons. split; [|by apply IH]. intros Hx. apply H1. by eapply elem_of_submseteq, sublist_submseteq.
  - intros [_ ?]%NoDup_cons. by apply IH.
Qed.
Section ws.
Context (parse_eid : string -> option eid) (host : eid) (local_eid : string -> option eid).
Context (dec_bundle : list N -> option bundle) (dec_send : fmt -> list N -> option send_data).
Notation step := (Apps.step parse_eid host local_eid dec_bundle dec_send).
Notation run := (Apps.run parse_eid host local_eid dec_bundle dec_send).

Lemma run_app st tr1 tr2 st' : run st (tr1 ++ tr2) st' <-> exists st1, run st tr1 st1 /\ run st1 tr2 st'.
Proof.
  revert st. induction tr1 as [|e tr1 IH]; intros st; cbn.
  - split; [intros H; exists st; split; [constructor|done]|]. intros (st1 & H & H'). inversion H; subst. done.
  - split.
    + intros H. inversion H as [|? ? st1 ? ? Hs Hr]; subst. apply IH in Hr as (st2 & H1 & H2). exists st2. split; [|done]. by econstructor.
    + intros (st1 & H & H'). inversion H as [|? ? st2 ? ? Hs Hr]; subst. econstructor; [done|]. apply IH. eauto.
Qed.

Ltac inv_step H := inversion H; subst; clear H; cbn [a_agents a_sessions a_sent upd set_session] in *.

(** what one step does to the table *)
Definition agent_op (e : ev) (l : list agent) : list agent :=
  match e with
  | ERegister e => register e l
  | EUnregister e => unregister e l
  | EDeliver b Queued => alter_agent (b_dst b) (put b) l
  | EPoll e _ | EWork _ (WPop e) _ => alter_agent e take_first l
  | EWork i (WSet e) _ => alter_agent e (set_sub (Some i)) l
  | EWork _ (WClear e) _ => alter_agent e (set_sub None) l
  | _ => l
  end.
Lemma step_agents st e st' : step st e st' -> a_agents st' = agent_op e (a_agents st).
Proof. intros H. inv_step H; done. Qed.
Lemma step_nodup st e st' : step st e st' -> NoDup (map ag_eid (a_agents st)) -> NoDup (map ag_eid (a_agents st')).
Proof.
  intros H Hd. rewrite (step_agents _ _ _ H).
  destruct e as [e|e|b []|e r| |i m|i [] r| | | |]; cbn [agent_op]; try done; try (rewrite alter_eids; done).
  - rewrite register_eids. destruct (known e (a_agents st)) eqn:E; [done|]. apply NoDup_app. split; [done|]. split; [|apply NoDup_singleton].
    intros x Hx ->%elem_of_list_singleton. apply known_elem in Hx. congruence.
  - by eapply nodup_sublist; [apply unregister_sub|].
Qed.
Lemma run_nodup st tr st' : run st tr st' -> NoDup (map ag_eid (a_agents st)) -> NoDup (map ag_eid (a_agents st')).
Proof. induction 1; [done|]. intros Hd. apply IHrun. by eapply step_nodup. Qed.

(** ** Queues *)
Definition queue_of (e : eid) (st : apps) : option (list bundle) := ag_queue <$> find_agent e (a_agents st).
Definition queued1 (e : eid) (v : ev) : list bundle :=
  match v with EDeliver b Queued => if bool_decide (b_dst b = e) then [b] else [] | _ => [] end.
Definition popped1 (e : eid) (v : ev) : list bundle :=
  match v with
  | EPoll e' (Some b) => if bool_decide (e' = e) then [b] else []
  | EWork _ (WPop e') (Some b) => if bool_decide (e' = e) then [b] else []
  | _ => []
  end.
Lemma step_queue st v st' e q : step st v st' -> queue_of e st = Some q -> v <> EUnregister e ->
  exists q', queue_of e st' = Some q' /\ q ++ queued1 e v = popped1 e v ++ q'.
Proof.
  unfold queue_of. intros H Hq Hne. rewrite (step_agents _ _ _ H).
  destruct (find_agent e (a_agents st)) as [a|] eqn:Ea; [|done]. cbn in Hq. injection Hq as <-.
  assert (Hid : forall v, agent_op v (a_agents st) = a_agents st -> queued1 e v = [] -> popped1 e v = [] ->
     exists q', ag_queue <$> find_agent e (agent_op v (a_agents st)) = Some q' /\ ag_queue a ++ queued1 e v = popped1 e v ++ q').
  { intros w -> -> ->. rewrite Ea. exists (ag_queue a). by rewrite app_nil_r. }
  assert (Hal : forall e' f w, (forall a, ag_eid (f a) = ag_eid a) -> (forall a, ag_queue (f a) = ag_queue a) ->
     agent_op w (a_agents st) = alter_agent e' f (a_agents st) -> queued1 e w = [] -> popped1 e w = [] ->
     exists q', ag_queue <$> find_agent e (agent_op w (a_agents st)) = Some q' /\ ag_queue a ++ queued1 e w = popped1 e w ++ q').
  { intros e' f w Hf Hg -> -> ->. destruct (decide (e' = e)) as [->|Hn].
    - rewrite find_alter by done. rewrite Ea. cbn. eexists. split; [done|]. by rewrite Hg, app_nil_r.
    - rewrite find_alter_ne by done. rewrite Ea. cbn. eexists. split; [done|]. by rewrite app_nil_r. }
  assert (Htk : forall e' w r, r = (match find_agent e' (a_agents st) with Some a => head (ag_queue a) | None => None end) ->
     agent_op w (a_agents st) = alter_agent e' take_first (a_agents st) -> queued1 e w = [] ->
     popped1 e w = match r with Some b => if bool_decide (e' = e) then [b] else [] | None => [] end ->
     exists q', ag_queue <$> find_agent e (agent_op w (a_agents st)) = Some q' /\ ag_queue a ++ queued1 e w = popped1 e w ++ q').
  { intros e' w r -> -> -> ->. destruct (decide (e' = e)) as [->|Hn].
    - rewrite find_alter by done. rewrite Ea. cbn. eexists. split; [done|]. rewrite app_nil_r.
      destruct (ag_queue a); [done|]. cbn. by rewrite bool_decide_true.
    - rewrite find_alter_ne by done. rewrite Ea. cbn. eexists. split; [done|]. rewrite app_nil_r.
      destruct (find_agent e' (a_agents st)) as [a'|]; [|done]. destruct (ag_queue a'); [done|]. cbn. by rewrite bool_decide_false. }
  inversion H; subst; try (apply Hid; done);
    try (eapply (Hal _ (set_sub _)); done); try (by eapply Htk; eauto).
  - cbn [agent_op queued1 popped1]. rewrite register_find, Ea. cbn. eexists. split; [done|]. by rewrite app_nil_r.
  - cbn [agent_op queued1 popped1]. rewrite unregister_find_ne by congruence. rewrite Ea. cbn. eexists. split; [done|]. by rewrite app_nil_r.
  - cbn [agent_op queued1 popped1]. case_bool_decide as Hb.
    + subst e. rewrite find_alter by done. rewrite Ea. cbn. eexists. done.
    + rewrite find_alter_ne by done. rewrite Ea. cbn. eexists. split; [done|]. by rewrite app_nil_r.
Qed.
Lemma run_queue st tr st' e q : run st tr st' -> queue_of e st = Some q -> EUnregister e ∉ tr ->
  exists q', queue_of e st' = Some q' /\ q ++ flat_map (queued1 e) tr = flat_map (popped1 e) tr ++ q'.
Proof.
  intros H. revert q. induction H as [st|st v st1 tr st' Hs Hr IH]; intros q Hq Hn.
  - exists q. cbn. by rewrite app_nil_r.
  - apply not_elem_of_cons in Hn as [Hn1 Hn2]. destruct (step_queue _ _ _ _ _ Hs Hq) as (q1 & Hq1 & E1); [congruence|].
    destruct (IH q1 Hq1 Hn2) as (q' & Hq' & E2). exists q'. split; [done|]. cbn. rewrite app_assoc, E1, <- !app_assoc. by rewrite E2.
Qed.

(** ** Channels *)
Definition inbox (s : session) : list bundle := option_list (ws_hand s) ++ ws_chan s.
Definition passed1 (i : nat) (v : ev) : list bundle :=
  match v with EDeliver b (Passed j) => if bool_decide (j = i) then [b] else [] | _ => [] end.
Definition handed1 (i : nat) (v : ev) : list bundle :=
  match v with EHand j b => if bool_decide (j = i) then [b] else [] | _ => [] end.
Lemma on_text_same l s t : let s' := on_text parse_eid host local_eid l s t in
  ws_hand s' = ws_hand s /\ ws_chan s' = ws_chan s /\ ws_rx s' = ws_rx s /\ ws_open s' = ws_open s /\ ws_held s' = ws_held s /\ ws_out s' = ws_out s.
Proof. unfold on_text. repeat case_match; done. Qed.
Lemma on_binary_same cts s d : let s' := fst (on_binary parse_eid dec_bundle dec_send cts s d) in
  ws_hand s' = ws_hand s /\ ws_chan s' = ws_chan s /\ ws_rx s' = ws_rx s /\ ws_open s' = ws_open s /\ ws_held s' = ws_held s /\ ws_out s' = ws_out s /\ ws_subs s' = ws_subs s.
Proof. unfold on_binary. repeat case_match; done. Qed.
Lemma step_session st v st' i s : step st v st' -> a_sessions st !! i = Some s -> exists s', a_sessions st' !! i = Some s'.
Proof.
  intros H Hi. inv_step H; eauto;
    try (match goal with |- context [<[?j := _]> _] => destruct (decide (i = j)) as [->|]; [rewrite list_lookup_insert by (by eapply lookup_lt_Some); eauto|rewrite list_lookup_insert_ne by done; eauto] end).
  rewrite lookup_app_l by (by eapply lookup_lt_Some). eauto.
Qed.
Lemma step_inbox st v st' i s : step st v st' -> a_sessions st !! i = Some s -> v <> EDrop i ->
  exists s', a_sessions st' !! i = Some s' /\ inbox s ++ passed1 i v = handed1 i v ++ inbox s'.
Proof.
  intros H Hi Hd.
  assert (Hs : forall w, passed1 i w = [] -> handed1 i w = [] -> exists s', a_sessions st !! i = Some s' /\ inbox s ++ passed1 i w = handed1 i w ++ inbox s').
  { intros w -> ->. exists s. by rewrite app_nil_r. }
  assert (Hu : forall w j s1 s2, a_sessions st !! j = Some s1 -> (j <> i -> passed1 i w = [] /\ handed1 i w = []) ->
     (j = i -> inbox s1 ++ passed1 i w = handed1 i w ++ inbox s2) ->
     exists s', <[j:=s2]> (a_sessions st) !! i = Some s' /\ inbox s ++ passed1 i w = handed1 i w ++ inbox s').
  { intros w j s1 s2 Hj Hn He. destruct (decide (j = i)) as [->|Hji].
    - rewrite list_lookup_insert by (by eapply lookup_lt_Some). exists s2. split; [done|]. rewrite Hi in Hj. injection Hj as <-. by apply He.
    - rewrite list_lookup_insert_ne by done. destruct (Hn Hji) as [-> ->]. exists s. by rewrite app_nil_r. }
  inv_step H; try (by apply Hs);
    try (match goal with Hj : a_sessions st !! ?j = Some _ |- context [<[?j := _]> _] => eapply (Hu _ j); [exact Hj|by intros; split|intros _; unfold inbox; cbn; by rewrite ?app_nil_r] end).
  - eapply (Hu _ i0); [done| |]; cbn.
    + intros Hne. by rewrite bool_decide_false.
    + intros ->. rewrite bool_decide_true by done. unfold inbox. cbn. by rewrite app_assoc.
  - rewrite lookup_app_l by (by eapply lookup_lt_Some). exists s. split; [done|]. cbn. by rewrite app_nil_r.
  - eapply (Hu _ i0); [done|by intros; split|]. intros _. unfold inbox.
    destruct (on_text_same (a_agents st) s0 t) as (-> & -> & _). cbn. by rewrite app_nil_r.
  - eapply (Hu _ i0); [done|by intros; split|]. intros _. unfold inbox.
    pose proof (on_binary_same cts s0 d) as (E1 & E2 & _). rewrite H3 in E1, E2. cbn in E1, E2. rewrite E1, E2. cbn. by rewrite app_nil_r.
  - eapply (Hu _ i0); [done|by intros; split|]. intros _. unfold inbox. cbn. by rewrite H2, H3, app_nil_r.
  - eapply (Hu _ i0); [done| |]; cbn.
    + intros Hne. by rewrite bool_decide_false.
    + intros ->. rewrite bool_decide_true by done. unfold inbox. cbn. by rewrite H3, app_nil_r.
  - eapply (Hu _ i0); [done|by intros; split|]. intros ->. done.
Qed.
Lemma run_inbox st tr st' i s : run st tr st' -> a_sessions st !! i = Some s -> EDrop i ∉ tr ->
  exists s', a_sessions st' !! i = Some s' /\ inbox s ++ flat_map (passed1 i) tr = flat_map (handed1 i) tr ++ inbox s'.
Proof.
  intros H. revert s. induction H as [st|st v st1 tr st' Hs Hr IH]; intros s Hi Hn.
  - exists s. cbn. by rewrite app_nil_r.
  - apply not_elem_of_cons in Hn as [Hn1 Hn2]. destruct (step_inbox _ _ _ _ _ Hs Hi) as (s1 & Hi1 & E1); [congruence|].
    destruct (IH s1 Hi1 Hn2) as (s' & Hi' & E2). exists s'. split; [done|]. cbn. rewrite app_assoc, E1, <- !app_assoc. by rewrite E2.
Qed.

(** ** Popped for a client *)
Definition fetched1 (i : nat) (v : ev) : list bundle :=
  match v with EWork j (WPop _) (Some b) => if bool_decide (j = i) then [b] else [] | _ => [] end.
Definition flushed1 (i : nat) (v : ev) : list bundle :=
  match v with EWork j WFlush (Some b) => if bool_decide (j = i) then [b] else [] | _ => [] end.
Definition closed1 (i : nat) (v : ev) : Prop := v = EClose i \/ v = EDrop i.
Lemma render_payload m b : payload_of b <> None -> exists o, render m b = Some o.
Proof. intros H. destruct m; cbn; [eauto|]. destruct (payload_of b); [eauto|done]. Qed.
Lemma step_held st v st' i s : step st v st' -> a_sessions st !! i = Some s -> v <> EClose i ->
  (forall b, b ∈ fetched1 i v -> payload_of b <> None) ->
  exists s', a_sessions st' !! i = Some s' /\ (ws_held s).*1 ++ fetched1 i v = flushed1 i v ++ (ws_held s').*1 /\
    (ws_open s = true -> ws_open s' = true).
Proof.
  intros H Hi Hd Hp.
  assert (Hs : forall w, fetched1 i w = [] -> flushed1 i w = [] -> exists s', a_sessions st !! i = Some s' /\ (ws_held s).*1 ++ fetched1 i w = flushed1 i w ++ (ws_held s').*1 /\ (ws_open s = true -> ws_open s' = true)).
  { intros w -> ->. exists s. by rewrite app_nil_r. }
  assert (Hu : forall w j s1 s2, a_sessions st !! j = Some s1 -> (j <> i -> fetched1 i w = [] /\ flushed1 i w = []) ->
     (j = i -> (ws_held s1).*1 ++ fetched1 i w = flushed1 i w ++ (ws_held s2).*1 /\ (ws_open s1 = true -> ws_open s2 = true)) ->
     exists s', <[j:=s2]> (a_sessions st) !! i = Some s' /\ (ws_held s).*1 ++ fetched1 i w = flushed1 i w ++ (ws_held s').*1 /\ (ws_open s = true -> ws_open s' = true)).
  { intros w j s1 s2 Hj Hn He. destruct (decide (j = i)) as [->|Hji].
    - rewrite list_lookup_insert by (by eapply lookup_lt_Some). exists s2. split; [done|]. rewrite Hi in Hj. injection Hj as <-. by apply He.
    - rewrite list_lookup_insert_ne by done. destruct (Hn Hji) as [-> ->]. exists s. by rewrite app_nil_r. }
  inv_step H; try (by apply Hs);
    try (match goal with Hj : a_sessions st !! ?j = Some _ |- context [<[?j := _]> _] => eapply (Hu _ j); [exact Hj|by intros; split|intros _; cbn; by rewrite ?app_nil_r] end).
  - rewrite lookup_app_l by (by eapply lookup_lt_Some). exists s. split; [done|]. cbn. by rewrite app_nil_r.
  - eapply (Hu _ i0); [done|by intros; split|]. intros _.
    destruct (on_text_same (a_agents st) s0 t) as (_ & _ & _ & -> & -> & _). cbn. by rewrite app_nil_r.
  - eapply (Hu _ i0); [done|by intros; split|]. intros _.
    pose proof (on_binary_same cts s0 d) as (_ & _ & _ & E1 & E2 & _). rewrite H3 in E1, E2. cbn in E1, E2. rewrite E1, E2. cbn. by rewrite app_nil_r.
  - eapply (Hu _ i0); [done| |]; cbn.
    + intros Hne. destruct (match find_agent e (a_agents st) with Some a => head (ag_queue a) | None => None end); [|done]. by rewrite bool_decide_false.
    + intros ->. cbn in Hp. destruct (match find_agent e (a_agents st) with Some a => head (ag_queue a) | None => None end) as [b|]; [|by rewrite !app_nil_r].
      rewrite bool_decide_true in * by done. destruct (render_payload (ws_mode s0) b) as [o ->]; [apply Hp; left|]. by rewrite fmap_app.
  - eapply (Hu _ i0); [done| |]; cbn.
    + intros Hne. by rewrite bool_decide_false.
    + intros ->. rewrite bool_decide_true by done. rewrite H2. by rewrite app_nil_r.
  - eapply (Hu _ i0); [done|by intros; split|]. intros ->. done.
  - eapply (Hu _ i0); [done|by intros; split|]. intros ->. cbn. rewrite app_nil_r. split; [done|]. congruence.
Qed.
Lemma run_held st tr st' i s : run st tr st' -> a_sessions st !! i = Some s -> EClose i ∉ tr ->
  (forall b, b ∈ flat_map (fetched1 i) tr -> payload_of b <> None) ->
  exists s', a_sessions st' !! i = Some s' /\ (ws_held s).*1 ++ flat_map (fetched1 i) tr = flat_map (flushed1 i) tr ++ (ws_held s').*1 /\
    (ws_open s = true -> ws_open s' = true).
Proof.
  intros H. revert s. induction H as [st|st v st1 tr st' Hs Hr IH]; intros s Hi Hn Hp.
  - exists s. cbn. by rewrite app_nil_r.
  - apply not_elem_of_cons in Hn as [Hn1 Hn2]. cbn in Hp. destruct (step_held _ _ _ _ _ Hs Hi) as (s1 & Hi1 & E1 & O1); [congruence| |].
    { intros b Hb. apply Hp. apply elem_of_app. by left. }
    destruct (IH s1 Hi1 Hn2) as (s' & Hi' & E2 & O2). { intros b Hb. apply Hp. apply elem_of_app. by right. }
    exists s'. split; [done|]. split; [|auto]. cbn. rewrite app_assoc, E1, <- !app_assoc. by rewrite E2.
Qed.
Lemma step_open st v st' i s : step st v st' -> a_sessions st !! i = Some s -> v <> EClose i ->
  exists s', a_sessions st' !! i = Some s' /\ (ws_open s = true -> ws_open s' = true).
Proof.
  intros H Hi Hd.
  assert (Hu : forall j s1 s2, a_sessions st !! j = Some s1 -> (j = i -> ws_open s1 = true -> ws_open s2 = true) ->
     exists s', <[j:=s2]> (a_sessions st) !! i = Some s' /\ (ws_open s = true -> ws_open s' = true)).
  { intros j s1 s2 Hj He. destruct (decide (j = i)) as [->|Hji].
    - rewrite list_lookup_insert by (by eapply lookup_lt_Some). exists s2. split; [done|]. rewrite Hi in Hj. injection Hj as <-. by apply He.
    - rewrite list_lookup_insert_ne by done. eauto. }
  inv_step H; eauto; try (match goal with Hj : a_sessions st !! ?j = Some _ |- context [<[?j := _]> _] => by eapply (Hu j) end).
  - rewrite lookup_app_l by (by eapply lookup_lt_Some). eauto.
  - eapply (Hu i0); [done|]. destruct (on_text_same (a_agents st) s0 t) as (_ & _ & _ & -> & _). done.
  - eapply (Hu i0); [done|]. pose proof (on_binary_same cts s0 d) as (_ & _ & _ & E1 & _). rewrite H3 in E1. cbn in E1. by rewrite E1.
Qed.
(** an open session has not been dropped *)
Lemma run_no_drop st tr st' i s : run st tr st' -> a_sessions st !! i = Some s -> ws_open s = true -> EClose i ∉ tr -> EDrop i ∉ tr.
Proof.
  intros H. revert s. induction H as [st|st v st1 tr st' Hs Hr IH]; intros s Hi Ho Hn; [apply not_elem_of_nil|].
  apply not_elem_of_cons in Hn as [Hn1 Hn2]. apply not_elem_of_cons. split.
  - intros <-. inversion Hs; subst. congruence.
  - destruct (step_open _ _ _ _ _ Hs Hi) as (s1 & Hi1 & Ho1); [congruence|]. eauto.
Qed.

(** ** Whose bundles *)
Definition tidy (st : apps) : Prop := forall e a b, find_agent e (a_agents st) = Some a -> b ∈ ag_queue a -> b_dst b = e.
Lemma step_tidy st v st' : step st v st' -> tidy st -> tidy st' \/ exists e, v = EUnregister e.
Proof.
  intros H Ht. destruct v as [e|e|b f|e r| |i m|i o r|i b|i b|i|i]; try (left; intros e' a' b'; rewrite (step_agents _ _ _ H); by apply Ht); eauto.
  all: left; intros e' a' b' Hf Hb; rewrite (step_agents _ _ _ H) in Hf; cbn [agent_op] in Hf.
  - rewrite register_find in Hf. destruct (find_agent e' (a_agents st)) as [a0|] eqn:E; [injection Hf as <-; by eapply Ht|].
    case_decide; [|done]. injection Hf as <-. by apply elem_of_nil in Hb.
  - destruct f; try (by eapply Ht). destruct (decide (b_dst b = e')) as [<-|Hne].
    + rewrite find_alter in Hf by done. destruct (find_agent (b_dst b) (a_agents st)) as [a0|] eqn:E; [|done]. injection Hf as <-.
      cbn in Hb. apply elem_of_app in Hb as [Hb|Hb%elem_of_list_singleton]; [by eapply Ht|by subst].
    + rewrite find_alter_ne in Hf by done. by eapply Ht.
  - destruct (decide (e = e')) as [<-|Hne]; [|rewrite find_alter_ne in Hf by done; by eapply Ht].
    rewrite find_alter in Hf by done. destruct (find_agent e (a_agents st)) as [a0|] eqn:E; [|done]. injection Hf as <-.
    cbn in Hb. eapply Ht; [done|]. destruct (ag_queue a0); [done|]. by right.
  - assert (Hc : forall e f, (forall a, ag_eid (f a) = ag_eid a) -> (forall a b, b ∈ ag_queue (f a) -> b ∈ ag_queue a) ->
      find_agent e' (alter_agent e f (a_agents st)) = Some a' -> b_dst b' = e').
    { intros e f Hfe Hfq Hf'. destruct (decide (e = e')) as [<-|Hne]; [|rewrite find_alter_ne in Hf' by done; by eapply Ht].
      rewrite find_alter in Hf' by done. destruct (find_agent e (a_agents st)) as [a0|] eqn:E; [|done]. injection Hf' as <-.
      eapply Ht; [done|]. by apply Hfq. }
    destruct o; try (by eapply Ht); (eapply Hc; [| |exact Hf]; [done|]); try done.
    intros a b. cbn. destruct (ag_queue a); [done|]. by right.
Qed.
Lemma step_tidy_find st v st' : step st v st' -> NoDup (map ag_eid (a_agents st)) -> tidy st -> tidy st'.
Proof.
  intros H Hd Ht. destruct (step_tidy _ _ _ H Ht) as [?|[e ->]]; [done|]. intros e' a' b' Hf Hb.
  rewrite (step_agents _ _ _ H) in Hf. cbn [agent_op] in Hf. destruct (decide (e = e')) as [<-|Hne].
  - by rewrite unregister_gone in Hf.
  - rewrite unregister_find_ne in Hf by done. by eapply Ht.
Qed.
End ws.
