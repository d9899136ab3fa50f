(** C122-C126: the external routing program dtnerouting (model: Erouter.v). *)
From stdpp Require Import prelude strings pretty gmap.
From Coq Require Import NArith Lia.
From Verif Require Import Core Peers Routing External Erouter ErouterProofs.
Open Scope N_scope.

(** ** Vocabulary.  A history is the list of packets the program received from
    the daemon, each with what it sent back (if anything). *)
Definition history (st : strategy) (ks : list packet) : list (packet * option response) := er_run st (Some er_start) ks.
(** asked about bundle [id], the program answered with a transmission to node [n] *)
Definition named (e : packet * option response) (id n : string) : Prop :=
  exists clas p r i, e = (PRequest clas p, Some r) /\ p_id p = id /\ i ∈ rs_clas r /\ node_or_empty (in_hop i) = n.
(** the daemon reports that the transmission of [id] to [n] failed, or that it
    gave up waiting for an answer about [id] *)
Definition released (e : packet * option response) (id n : string) : Prop :=
  fst e = PFailed id n \/ exists p, fst e = PTimeout p /\ p_id p = id.
(** the daemon reports that bundle [id] came from node [n] *)
Definition reported_from (e : packet * option response) (id n : string) : Prop :=
  n <> "" /\ (fst e = PIncomingNoPrev id n \/
    exists b p, fst e = PIncoming b /\ bid b = id /\ previous_node b = Some p /\ eid_node p = Some n).
(** the program has been told of peer [q] of node [n], and of no change since *)
Definition told (e : packet * option response) (n : string) (q : peer) : Prop :=
  (exists a, fst e = PEncountered a q /\ eid_node a = Some n) \/ exists m, fst e = PPeerState m /\ m !! n = Some q.
Definition changed (e : packet * option response) (n : string) : Prop :=
  (exists m, fst e = PPeerState m) \/ (exists a q, fst e = PEncountered a q /\ eid_node a = Some n) \/ exists a, fst e = PDropped a /\ eid_node a = Some n.
Definition knows (l : list (packet * option response)) (n : string) (q : peer) : Prop :=
  exists l1 e l2, l = l1 ++ e :: l2 /\ told e n q /\ forall x, x ∈ l2 -> ~ changed x n.
(** the layers [clas] the daemon offers reach a known peer that is node [n] *)
Definition reaches (l : list (packet * option response)) (clas : list string) (n : string) : Prop :=
  exists key q c, knows l key q /\ node_name q = n /\ c ∈ pe_clas q /\ fst c ∈ clas.
(** [n] has bundle [id], as far as the program was told: it named [n] for it
    or heard that it came from [n], and nothing was released since *)
Definition served (l : list (packet * option response)) (id n : string) : Prop :=
  exists l1 e l2, l = l1 ++ e :: l2 /\ (named e id n \/ reported_from e id n) /\ forall x, x ∈ l2 -> ~ released x id n.

Lemma reaches_table st ks s clas n : er_state st (Some er_start) ks = Some s ->
  reaches (history st ks) clas n <-> exists q, q ∈ in_order (er_table s) /\ node_name q = n /\ usable clas q.
Proof.
  intros Hs. unfold reaches, usable. split.
  - intros (key & q & c & Hk & Hn & Hc & Hl). exists q. split; [|eauto]. apply in_order_elem. exists key. by apply (er_table_knows st ks s key q Hs).
  - intros (q & [key Hk]%in_order_elem & Hn & c & Hc & Hl). exists key, q, c. split; [|done]. by apply (er_table_knows st ks s key q Hs).
Qed.
(** the last step of a history *)
Lemma last_request st ks clas p r : history st (ks ++ [PRequest clas p]) = history st ks ++ [(PRequest clas p, Some r)] ->
  exists s s', er_state st (Some er_start) ks = Some s /\ er_step st s (PRequest clas p) = Some (s', Some r).
Proof. unfold history. rewrite er_run_app. intros Hrun%app_inv_head. by apply er_answered. Qed.
Lemma last_epidemic ks clas p r : history Epidemic (ks ++ [PRequest clas p]) = history Epidemic ks ++ [(PRequest clas p, Some r)] ->
  exists s h', er_state Epidemic (Some er_start) ks = Some s /\ rs_pack r = p /\
    er_peers clas p (in_order (er_table s)) (er_hist s) [] false = Some (h', rs_clas r, rs_delete r).
Proof.
  intros (s & s' & Hs & Hstep)%last_request. cbn in Hstep. destruct (er_peers _ _ _ _ _ _) as [[[h' ss] del]|] eqn:E; [|done].
  injection Hstep as <- <-. exists s, h'. done.
Qed.

(** ** C122 *)
Theorem C122_no_repeat : forall ks id n l1 e1 l2 e2 l3,
  history Epidemic ks = l1 ++ e1 :: l2 ++ e2 :: l3 -> named e1 id n \/ reported_from e1 id n -> named e2 id n ->
  exists x, x ∈ l2 /\ released x id n.
Proof.
  intros ks id n l1 e1 l2 e2 l3 Hrun H1 H2. unfold history in Hrun.
  destruct (er_run_split _ _ _ _ _ _ Hrun) as (k1 & k2 & -> & Hl1 & He1 & Hrest).
  destruct (er_state Epidemic (Some er_start) k1) as [s|] eqn:Hs.
  - destruct (er_step Epidemic s (fst e1)) as [[s' r]|] eqn:Es.
    + assert (Ha : e1 = (fst e1, r)). { cbn in He1. rewrite Es in He1. cbn in He1. by injection He1 as <-. }
      rewrite er_state_app, Hs in Hrest. cbn in Hrest. rewrite Es in Hrest. cbn in Hrest.
      eapply er_marked_not_named; [|exact Hrest|exact H2]. destruct H1 as [H1|H1].
      * eapply er_step_names; [exact Es|]. by rewrite <- Ha.
      * rewrite (er_step_marks _ _ _ _ _ _ Es). right. left. by rewrite <- Ha.
    + exfalso. cbn in He1. rewrite Es in He1. destruct H1 as [(clas & p & r & i & -> & _)|(_ & [H1|(b & p & H1 & _)])]; [done| |]; rewrite H1 in Es; done.
  - exfalso. rewrite er_state_app, Hs, er_state_dead, er_run_dead in Hrest.
    assert (Hin : e2 ∈ map (fun k : packet => (k, None : option response)) k2). { rewrite Hrest. apply elem_of_app. right. apply elem_of_list_here. }
    apply elem_of_list_fmap in Hin as (k & -> & _). by destruct H2 as (clas & p & r & i & ? & _).
Qed.
Print Assumptions C122_no_repeat.
Theorem C122_once_per_answer : forall ks clas p r,
  (PRequest clas p, Some r) ∈ history Epidemic ks -> NoDup (map (fun i => node_or_empty (in_hop i)) (rs_clas r)).
Proof.
  intros ks clas p r (l1 & l2 & Hrun)%elem_of_list_split.
  destruct (er_run_split _ _ _ _ _ _ Hrun) as (k1 & k2 & -> & Hl1 & He1 & Hrest). cbn [fst] in *.
  apply er_answered in He1 as (s & s' & Hs & Hstep). cbn in Hstep.
  destruct (er_peers _ _ _ _ _ _) as [[[h' ss] del]|] eqn:E; [|done]. injection Hstep as <- <-. cbn [rs_clas].
  eapply er_peers_named; [exact E|by intros ? ?%elem_of_nil|apply NoDup_nil_2].
Qed.
Print Assumptions C122_once_per_answer.
(** what is named exists: a known peer, at its address, on a layer it lists and
    the daemon runs *)
Theorem C122_real : forall st ks clas p r i,
  history st (ks ++ [PRequest clas p]) = history st ks ++ [(PRequest clas p, Some r)] -> i ∈ rs_clas r ->
  exists key q, knows (history st ks) key q /\ in_hop i = pe_eid q /\ in_remote i = pe_addr q /\
    (in_agent i, in_port i) ∈ pe_clas q /\ in_agent i ∈ clas.
Proof.
  intros st ks clas p r i Hrun Hi. destruct (last_request _ _ _ _ _ Hrun) as (s & s' & Hs & Hstep).
  assert (H : exists q c, q ∈ in_order (er_table s) /\ c ∈ pe_clas q /\ fst c ∈ clas /\ i = er_sender q c).
  { cbn in Hstep. destruct st.
    - injection Hstep as <- <-. cbn in Hi. unfold er_flood in Hi. apply elem_of_list_In, in_flat_map in Hi as (q & Hq%elem_of_list_In & Hi%elem_of_list_In).
      apply elem_of_list_fmap in Hi as (c & -> & [Hl%bool_decide_eq_true Hc]%elem_of_list_filter). eauto 10.
    - destruct (er_peers _ _ _ _ _ _) as [[[h' ss] del]|] eqn:E; [|done]. injection Hstep as <- <-. cbn in Hi.
      destruct (er_peers_named _ _ _ _ _ _ _ _ _ E) as [_ Hn]; [by intros ? ?%elem_of_nil|apply NoDup_nil_2|].
      destruct (Hn i Hi) as [_ [?%elem_of_nil|(_ & q & c & H)]]; [done|]. eauto. }
  destruct H as (q & [a pt] & [key Hk]%in_order_elem & Hc & Hl & ->). exists key, q. split; [by apply (er_table_knows st ks s key q Hs)|]. done.
Qed.
Print Assumptions C122_real.

Definition xp (name : string) : peer := Peer (Dtn name "") (AIp "10.0.0.1") false None [("mtcp", Some 16162); ("tcp", None)] [] 0 0.
Definition xpack (dst : eid) : pack := Pack (Dtn "src" "") dst 0 0 0 "dtn://src/-0-0" false no_constraints.
Definition xto (n : string) : instr := Instr (AIp "10.0.0.1") (Some 16162) "mtcp" (Dtn n "").
Definition xask (dst : eid) : packet := PRequest ["mtcp"; "tcp"] (xpack dst).
Example C122_case :
  let id := "dtn://src/-0-0" in let q := xask (Dtn "far" "in") in
  omap snd (history Epidemic [PPeerState (<["b" := xp "b"]> (<["c" := xp "c"]> ∅)); PIncomingNoPrev id "c"; PEncountered (Dtn "a" "") (xp "a");
     q; q; PFailed id "a"; q; PTimeout (xpack DtnNone); PDropped (Dtn "b" ""); q]) =
  map (fun l => Response (xpack (Dtn "far" "in")) (map xto l) false) [["a"; "b"]; []; ["a"]; ["a"; "c"]].
Proof. vm_compute. reflexivity. Qed.

(** ** C123 *)
(** Full statement: whoever is reachable and does not have the bundle is named,
    unless the destination itself is. *)
Definition C123_full : Prop := forall ks clas p r n,
  history Epidemic (ks ++ [PRequest clas p]) = history Epidemic ks ++ [(PRequest clas p, Some r)] ->
  reaches (history Epidemic ks) clas n -> ~ served (history Epidemic ks) (p_id p) n ->
  exists i, i ∈ rs_clas r /\ (node_or_empty (in_hop i) = n \/ eid_node (p_dst p) = Some (node_or_empty (in_hop i))).
(** Not so: peers visited before the destination are taken out of the answer
    again but stay on the list of those who have the bundle.  When the transfer
    to the destination fails and the destination leaves, nobody is named. *)
Theorem C123_full_refuted : ~ C123_full.
Proof.
  intros Hfull.
  set (ks := [PEncountered (Dtn "a" "") (xp "a"); PEncountered (Dtn "m" "") (xp "m"); xask (Dtn "m" "in");
              PFailed "dtn://src/-0-0" "m"; PDropped (Dtn "m" "")]).
  destruct (Hfull ks ["mtcp"; "tcp"] (xpack (Dtn "m" "in")) (Response (xpack (Dtn "m" "in")) [] false) "a") as (i & Hi & _).
  - vm_compute. reflexivity.
  - exists "a", (xp "a"), ("mtcp", Some 16162). split; [|split; [done|split; [apply elem_of_list_here|apply elem_of_list_here]]].
    exists [], (PEncountered (Dtn "a" "") (xp "a"), None), (tail (history Epidemic ks)). split; [vm_compute; reflexivity|].
    split; [left; by exists (Dtn "a" "")|].
    intros x Hx. change (tail (history Epidemic ks)) with
      [(PEncountered (Dtn "m" "") (xp "m"), None); (xask (Dtn "m" "in"), Some (Response (xpack (Dtn "m" "in")) [xto "m"] true));
       (PFailed "dtn://src/-0-0" "m", None); (PDropped (Dtn "m" ""), None)] in Hx.
    intros Hc. repeat (apply elem_of_cons in Hx as [->|Hx]); [..|by apply elem_of_nil in Hx];
      destruct Hc as [(? & ?)|[(? & ? & Hc & He)|(? & Hc & He)]]; cbn in *; try done;
      injection Hc; intros; subst; cbn in He; done.
  - intros (l1 & e & l2 & Hl & He & _).
    assert (Hin : e ∈ history Epidemic ks). { rewrite Hl. apply elem_of_app. right. apply elem_of_list_here. }
    change (history Epidemic ks) with
      [(PEncountered (Dtn "a" "") (xp "a"), None : option response);
       (PEncountered (Dtn "m" "") (xp "m"), None); (xask (Dtn "m" "in"), Some (Response (xpack (Dtn "m" "in")) [xto "m"] true));
       (PFailed "dtn://src/-0-0" "m", None); (PDropped (Dtn "m" ""), None)] in Hin.
    repeat (apply elem_of_cons in Hin as [->|Hin]); [..|by apply elem_of_nil in Hin];
      destruct He as [(clas & p & r & i & [=] & _ & Hi & Hn)|(_ & [?|(? & ? & ? & _)])]; try done.
    subst. cbn in Hi. apply elem_of_list_singleton in Hi as ->. done.
  - by apply elem_of_nil in Hi.
Qed.
Print Assumptions C123_full_refuted.
(** Missing from the full statement: bundles for which an earlier answer asked
    for the removal of the bundle (a direct delivery was tried before). *)
Theorem C123_coverage_partial : forall ks clas p r n,
  history Epidemic (ks ++ [PRequest clas p]) = history Epidemic ks ++ [(PRequest clas p, Some r)] ->
  (forall clas' p' r', (PRequest clas' p', Some r') ∈ history Epidemic ks -> p_id p' = p_id p -> rs_delete r' = false) ->
  reaches (history Epidemic ks) clas n -> ~ served (history Epidemic ks) (p_id p) n ->
  exists i, i ∈ rs_clas r /\ (node_or_empty (in_hop i) = n \/ eid_node (p_dst p) = Some (node_or_empty (in_hop i))).
Proof.
  intros ks clas p r n Hrun Hdel Hre Hsv. destruct (last_epidemic _ _ _ _ Hrun) as (s & h' & Hs & _ & E).
  apply (reaches_table _ _ s) in Hre as (q & Hq & <- & Hu); [|done].
  assert (Hfree : e_contains (er_hist s) (p_id p) (node_name q) = false).
  { apply not_true_is_false. intros Hm. apply Hsv. by apply (er_marked_why ks s). }
  assert (Hdec : (exists q0, q0 ∈ in_order (er_table s) /\ direct clas p (er_hist s) q0) \/ (forall q0, q0 ∈ in_order (er_table s) -> ~ direct clas p (er_hist s) q0)).
  { clear -s. induction (in_order (er_table s)) as [|q0 l IH]; [right; by intros ? ?%elem_of_nil|].
    assert (Hd : direct clas p (er_hist s) q0 \/ ~ direct clas p (er_hist s) q0).
    { unfold direct. rewrite <- first_layer_usable. destruct (first_layer clas q0); [|right; by intros [[] _]].
      destruct (e_contains _ _ _); [right; by intros (_ & ? & _)|]. destruct (decide (eid_node (p_dst p) = Some (node_name q0))); [left|right; naive_solver].
      split; [by eexists|done]. }
    destruct Hd as [Hd|Hd]; [left; exists q0; split; [apply elem_of_list_here|done]|].
    destruct IH as [(q1 & Hin & Hd1)|Hno]; [left; exists q1; split; [by apply elem_of_list_further|done]|].
    right. by intros q1 [->|Hin]%elem_of_cons; [|apply Hno]. }
  destruct Hdec as [Hex|Hno].
  - destruct (er_peers_direct _ _ _ _ _ _ _ _ _ E Hex) as (_ & ps1 & q0 & ps2 & c & rest & _ & (_ & _ & Hd) & _ & _ & _ & -> & _).
    exists (er_sender q0 c). split; [apply elem_of_list_here|by right].
  - destruct (er_peers_indirect _ _ _ _ _ _ _ _ _ E Hno) as (_ & rest & -> & _ & H2).
    destruct (H2 q Hq Hu Hfree) as (i & Hi & Hn). exists i. split; [done|by left].
Qed.
Print Assumptions C123_coverage_partial.

(** ** C124 *)
(** Full statement: when the program asks for the removal of the bundle, the
    bundle goes to its destination and to nobody else. *)
Definition C124_full : Prop := forall ks clas p r,
  history Epidemic (ks ++ [PRequest clas p]) = history Epidemic ks ++ [(PRequest clas p, Some r)] ->
  rs_delete r = true -> exists i, rs_clas r = [i] /\ eid_node (p_dst p) = Some (node_or_empty (in_hop i)).
(** Not so: the break leaves only the inner loop and the peers visited after
    the destination are added. *)
Theorem C124_full_refuted : ~ C124_full.
Proof.
  intros Hfull.
  destruct (Hfull [PEncountered (Dtn "m" "") (xp "m"); PEncountered (Dtn "z" "") (xp "z")] ["mtcp"; "tcp"] (xpack (Dtn "m" "in"))
    (Response (xpack (Dtn "m" "in")) [xto "m"; xto "z"] true)) as (i & Hi & _); [vm_compute; reflexivity|done|]. done.
Qed.
Print Assumptions C124_full_refuted.
(** Missing: the answer may name others after the destination.  What holds:
    the destination is named first; whoever follows does not have the bundle;
    and a reachable destination that does not have the bundle is always named
    (as long as no direct delivery was tried before). *)
Theorem C124_direct_partial : forall ks clas p r,
  history Epidemic (ks ++ [PRequest clas p]) = history Epidemic ks ++ [(PRequest clas p, Some r)] ->
  (rs_delete r = true -> exists i rest, rs_clas r = i :: rest /\ eid_node (p_dst p) = Some (node_or_empty (in_hop i)) /\
     forall j, j ∈ rest -> node_or_empty (in_hop j) <> node_or_empty (in_hop i)) /\
  (rs_delete r = false -> forall i, i ∈ rs_clas r -> eid_node (p_dst p) <> Some (node_or_empty (in_hop i))) /\
  (forall n, eid_node (p_dst p) = Some n -> reaches (history Epidemic ks) clas n -> ~ served (history Epidemic ks) (p_id p) n ->
     (forall clas' p' r', (PRequest clas' p', Some r') ∈ history Epidemic ks -> p_id p' = p_id p -> rs_delete r' = false) ->
     rs_delete r = true).
Proof.
  intros ks clas p r Hrun. destruct (last_epidemic _ _ _ _ Hrun) as (s & h' & Hs & _ & E).
  assert (Hnd : NoDup (map ihop (rs_clas r))).
  { eapply er_peers_named; [exact E|by intros ? ?%elem_of_nil|apply NoDup_nil_2]. }
  assert (Hind : (forall q0, q0 ∈ in_order (er_table s) -> ~ direct clas p (er_hist s) q0) -> rs_delete r = false).
  { intros Hno. by destruct (er_peers_indirect _ _ _ _ _ _ _ _ _ E Hno) as (? & _). }
  assert (Hdec : (exists q0, q0 ∈ in_order (er_table s) /\ direct clas p (er_hist s) q0) \/ (forall q0, q0 ∈ in_order (er_table s) -> ~ direct clas p (er_hist s) q0)).
  { clear -s. induction (in_order (er_table s)) as [|q0 l IH]; [right; by intros ? ?%elem_of_nil|].
    assert (Hd : direct clas p (er_hist s) q0 \/ ~ direct clas p (er_hist s) q0).
    { unfold direct. rewrite <- first_layer_usable. destruct (first_layer clas q0); [|right; by intros [[] _]].
      destruct (e_contains _ _ _); [right; by intros (_ & ? & _)|]. destruct (decide (eid_node (p_dst p) = Some (node_name q0))); [left|right; naive_solver].
      split; [by eexists|done]. }
    destruct Hd as [Hd|Hd]; [left; exists q0; split; [apply elem_of_list_here|done]|].
    destruct IH as [(q1 & Hin & Hd1)|Hno]; [left; exists q1; split; [by apply elem_of_list_further|done]|].
    right. by intros q1 [->|Hin]%elem_of_cons; [|apply Hno]. }
  split; [|split].
  - intros Ht. destruct Hdec as [Hex|Hno]; [|rewrite (Hind Hno) in Ht; done].
    destruct (er_peers_direct _ _ _ _ _ _ _ _ _ E Hex) as (_ & ps1 & q0 & ps2 & c & rest & _ & (_ & _ & Hd) & _ & _ & _ & Heq & H1 & _).
    rewrite Heq. exists (er_sender q0 c), rest. split; [done|]. split; [done|]. intros j Hj.
    destruct (H1 j Hj) as (q1 & c1 & _ & _ & _ & _ & Hne & ->). done.
  - intros Hf i Hi Hd. destruct Hdec as [Hex|Hno].
    { destruct (er_peers_direct _ _ _ _ _ _ _ _ _ E Hex) as (Ht & _). congruence. }
    destruct (er_peers_indirect _ _ _ _ _ _ _ _ _ E Hno) as (_ & rest & Heq & H1 & _). rewrite Heq in Hi. cbn in Hi.
    destruct (H1 i Hi) as (q & c & Hq & Hc & Hl & Hm & ->). apply (Hno q Hq). split; [by exists c|]. done.
  - intros n Hd Hre Hsv Hdel. apply (reaches_table _ _ s) in Hre as (q & Hq & <- & Hu); [|done].
    assert (Hfree : e_contains (er_hist s) (p_id p) (node_name q) = false).
    { apply not_true_is_false. intros Hm. apply Hsv. by apply (er_marked_why ks s). }
    destruct (er_peers_direct _ _ _ _ _ _ _ _ _ E) as (Ht & _); [|done]. exists q. done.
Qed.
Print Assumptions C124_direct_partial.

(** ** C125 *)
(** Full statement: every request is answered, with the pack that was asked
    about. *)
Definition C125_full : Prop := forall st ks clas p a,
  (PRequest clas p, a) ∈ history st ks -> exists r, a = Some r /\ rs_pack r = p.
(** Not so: a request about a bundle addressed to dtn:none ends the program. *)
Theorem C125_full_refuted : ~ C125_full.
Proof.
  intros Hfull.
  destruct (Hfull Epidemic [PEncountered (Dtn "a" "") (xp "a"); xask DtnNone] ["mtcp"; "tcp"] (xpack DtnNone) None) as (r & ? & _); [|done].
  change (history _ _) with [(PEncountered (Dtn "a" "") (xp "a"), None : option response); (xask DtnNone, None)].
  apply elem_of_list_further, elem_of_list_here.
Qed.
Print Assumptions C125_full_refuted.
(** Missing: histories with an endpoint that is no node, as the destination of
    a bundle asked about before or now (epidemic only) or as a peer. *)
Definition proper (st : strategy) (k : packet) : Prop :=
  match k with
  | PEncountered e _ | PDropped e => eid_node e <> None
  | PRequest _ p => st = Flooding \/ eid_node (p_dst p) <> None
  | _ => True
  end.
Lemma er_alive st ks : (forall k, k ∈ ks -> proper st k) -> exists s, er_state st (Some er_start) ks = Some s.
Proof.
  generalize er_start. induction ks as [|k ks IH]; intros s0 Hk; cbn; [by eexists|].
  assert (Hstep : exists s1 r, er_step st s0 k = Some (s1, r)).
  { pose proof (Hk k (elem_of_list_here _ _)) as Hp. destruct k as [m|e q|e|i m|p|b|i m|clas p|]; cbn in Hp |- *; try (by eauto).
    - destruct (eid_node e); [by eauto|done].
    - destruct (eid_node e); [by eauto|done].
    - destruct st; [by eauto|]. destruct Hp as [?|Hp]; [done|]. destruct (er_peers_alive clas p (in_order (er_table s0)) (er_hist s0) [] false) as [[[h' ss] del] ->]; [|by eauto].
      destruct (eid_node (p_dst p)); [by eexists|done]. }
  destruct Hstep as (s1 & r & ->). apply IH. intros k0 Hin. apply Hk. by apply elem_of_list_further.
Qed.
Theorem C125_answer_partial : forall st ks clas p a,
  (forall k, k ∈ ks -> proper st k) -> (PRequest clas p, a) ∈ history st ks -> exists r, a = Some r /\ rs_pack r = p.
Proof.
  intros st ks clas p a Hk (l1 & l2 & Hrun)%elem_of_list_split. unfold history in Hrun.
  destruct (er_run_split _ _ _ _ _ _ Hrun) as (k1 & k2 & -> & Hl1 & He1 & Hrest). cbn [fst] in *.
  destruct (er_alive st (k1 ++ [PRequest clas p])) as [s Hs].
  { intros k Hin. apply Hk. rewrite elem_of_app in Hin |- *. destruct Hin as [Hin| ->%elem_of_list_singleton]; [by left|]. right. apply elem_of_list_here. }
  destruct (er_state_prefix _ _ _ _ _ Hs) as [s0 Hs0]. rewrite er_state_app, Hs0 in Hs. rewrite Hs0 in He1. cbn in He1, Hs.
  destruct st; cbn in He1.
  - injection He1 as <-. by eexists.
  - destruct (er_peers _ _ _ _ _ _) as [[[h' ss] del]|]; [|done]. cbn in He1. injection He1 as <-. by eexists.
Qed.
Print Assumptions C125_answer_partial.
(** packets that are no requests are not answered *)
Theorem C125_only_requests : forall st ks k r, (k, Some r) ∈ history st ks -> exists clas p, k = PRequest clas p /\ rs_pack r = p.
Proof.
  intros st ks k r (l1 & l2 & Hrun)%elem_of_list_split. destruct (er_run_split _ _ _ _ _ _ Hrun) as (k1 & k2 & -> & Hl1 & He1 & _). cbn [fst] in *.
  apply er_answered in He1 as (s & s' & _ & Hstep). destruct k as [m|e q|e|i m|p|b|i m|clas p|]; cbn in Hstep; try done.
  - by destruct (eid_node e).
  - by destruct (eid_node e).
  - exists clas, p. split; [done|]. destruct st; [by injection Hstep as _ <-|]. destruct (er_peers _ _ _ _ _ _) as [[[h' ss] del]|]; [|done]. by injection Hstep as _ <-.
Qed.
Print Assumptions C125_only_requests.

(** ** C126 *)
(** With the flooding strategy every answer names every layer of every known
    peer that the daemon runs, and removal is never asked for. *)
Theorem C126_flooding : forall ks clas p r,
  history Flooding (ks ++ [PRequest clas p]) = history Flooding ks ++ [(PRequest clas p, Some r)] ->
  rs_delete r = false /\
  forall i, i ∈ rs_clas r <-> exists key q, knows (history Flooding ks) key q /\ in_hop i = pe_eid q /\ in_remote i = pe_addr q /\
    (in_agent i, in_port i) ∈ pe_clas q /\ in_agent i ∈ clas.
Proof.
  intros ks clas p r Hrun. destruct (last_request _ _ _ _ _ Hrun) as (s & s' & Hs & Hstep). cbn in Hstep. injection Hstep as Hss Hr.
  split; [by rewrite <- Hr|]. intros i. split; [by eapply C122_real|].
  intros (key & q & Hk & Hh & Hr1 & Hc & Hl). rewrite <- Hr. cbn [rs_clas]. unfold er_flood.
  apply elem_of_list_In, in_flat_map. exists q. split.
  - apply elem_of_list_In, in_order_elem. exists key. by apply (er_table_knows _ _ s key q Hs).
  - apply elem_of_list_In, elem_of_list_fmap. exists (in_agent i, in_port i). split.
    + unfold er_sender. cbn. rewrite <- Hh, <- Hr1. by destruct i.
    + apply elem_of_list_filter. split; [by apply bool_decide_eq_true|done].
Qed.
Print Assumptions C126_flooding.
Example C126_case :
  omap snd (history Flooding [PEncountered (Dtn "a" "") (xp "a"); PEncountered (Dtn "z" "") (xp "z"); xask DtnNone;
     PDropped (Dtn "a" ""); PRequest ["tcp"] (xpack (Dtn "z" "in"))]) =
  [Response (xpack DtnNone) [xto "a"; Instr (AIp "10.0.0.1") None "tcp" (Dtn "a" ""); xto "z"; Instr (AIp "10.0.0.1") None "tcp" (Dtn "z" "")] false;
   Response (xpack (Dtn "z" "in")) [Instr (AIp "10.0.0.1") None "tcp" (Dtn "z" "")] false].
Proof. vm_compute. reflexivity. Qed.
(** the destination alone, when it is visited last; nobody twice *)
Example C123_C124_C125_case :
  omap snd (history Epidemic [PEncountered (Dtn "a" "") (xp "a"); PEncountered (Dtn "m" "") (xp "m"); xask (Dtn "m" "in"); xask (Dtn "m" "in")]) =
  [Response (xpack (Dtn "m" "in")) [xto "m"] true; Response (xpack (Dtn "m" "in")) [] false].
Proof. vm_compute. reflexivity. Qed.
