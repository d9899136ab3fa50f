(** C160: a bundle gets to its destination along a route of nodes that work. *)
From stdpp Require Import prelude strings pretty gmap sorting.
From Coq Require Import NArith Lia ZifyBool ZifyN ZifyNat.
From Verif Require Import Core StoreMem Peers PeersProofs Routing RoutingProofs IdProofs Pipeline PipelineBase PipelineProofs PipelineInv PipelineRun TransferProofs Props_Transfer ReceptionProofs Props_Reception CauseProofs LocalProofs StaticProofs Props_Static Props_Epidemic Props_Cause DeliverProofs Props_Deliver DispatchProofs JanitorProofs Props_Janitor Props_Dispatch NodeRouting Props_NodeRouting Props_NodeHops Network NetworkProofs Props_Network.
Open Scope N_scope.

(** ** Specification *)
Section spec.
Context (node_of : nat -> settings).
(** the events of a run of the network at node [x] are [proj x tr] *)
(** task [i] of node [x] handed a copy of [b] to the application it is for *)
Definition delivered_at (tr : list netev) (x : nat) (b : bundle) : Prop :=
  exists i b' r, At x (EStep i (LAct (Deliver (b_dst b) b') r)) ∈ tr /\ (r = Queued \/ r = Handed) /\
    primary b' = primary b /\ payload b' = payload b /\ other_blocks b' = other_blocks b.
(** what can go wrong for [b] at one node, given what happened there *)
Inductive mishap (tr : list event) (b : bundle) : Prop :=
| store_fails i p : does tr i (SUpdate p) false -> mishap tr b
| store_full i b' : does tr i (SPush b') false \/ does tr i (SAdd b') None -> mishap tr b
| is_gone i : does tr i (SGet (bid b)) None -> mishap tr b
| may_not_leave i : over_limit tr i (bid b) -> mishap tr b
| bad_prev i b' x : does tr i (SGet (bid b)) (Some b') -> first_block 6 b' = Some x -> (forall e, k_data x <> CPrev e) -> mishap tr b
| no_report i b' st rs : does tr i (NewReport b' st rs) None -> mishap tr b.
(** an application is not known *)
Definition unknown_app (tr : list event) (e : eid) : Prop := exists i, does tr i (HasEndpoint e) false \/ exists b, does tr i (Deliver e b) NoEndpoint.
(** nobody else makes a bundle with the id of [b] *)
Definition only_one (tr : list netev) (x0 : nat) (b : bundle) : Prop :=
  forall j b', made tr j b' -> bid b' = bid b -> j = x0 /\ b' = b.
(** nothing is under way at the node *)
Definition all_ended (m : machine) : Prop := forall i k q, m_tasks m !! i = Some (k, q) -> ended q.
(** The agent of [x], when asked for the bundle, names a neighbour of kind [P], and
    what [x] transmits to such a neighbour arrives at [y]. *)
Definition leads (tr : list netev) (x y : nat) (id : string) (P : sender -> Prop) : Prop :=
  (forall i p a, does (proj x tr) i (Route p) a -> p_id p = id ->
     exists nodes del s, a = Some (nodes, del) /\ s ∈ nodes /\ P s) /\
  (forall i s b r, does (proj x tr) i (Transfer s b) r -> bid b = id -> P s -> Arrives x y b ∈ tr).
(** every node of the route [x0; x1; ...] leads to the next, and is not the
    destination *)
Fixpoint on_route (tr : list netev) (ms : nat -> machine) (b : bundle) (x : nat) (l : list nat) : Prop :=
  all_ended (ms x) /\
  match l with
  | [] => True
  | y :: l => for_others (s_host (node_of x)) b /\ (exists P, leads tr x y (bid b) P) /\ on_route tr ms b y l
  end.
End spec.

(** ** Proofs *)
Lemma at_of_proj x tr i l : EStep i l ∈ proj x tr -> At x (EStep i l) ∈ tr.
Proof.
  intros H. unfold proj in H. apply elem_of_list_In, in_flat_map in H as (e & He & Hi). apply elem_of_list_In in He.
  destruct e as [k e|j k b|j b|j k b]; cbn in Hi; try destruct (decide (k = x)) as [->|]; try done; destruct Hi as [E|[]]; subst; done.
Qed.
Lemma over_limit_mono t1 t2 i id : over_limit t2 i id -> over_limit (t1 ++ t2) i id.
Proof.
  assert (Hd : forall o r, does t2 i o r -> does (t1 ++ t2) i o r) by (intros o r H; apply elem_of_app; by right).
  intros (b & H1 & H2 & [H|[H|(a & p & now & H3 & H4 & H5 & H6)]]); exists b; (split; [by apply Hd|]); (split; [done|]); auto.
  right. right. exists a, p, now. auto.
Qed.
Section proofs.
Context (node_of : nat -> settings) (parse_record : list N -> option arecord)
        (lifetime_exceeded : N -> bundle -> bool).
Notation net_run := (net_run node_of parse_record lifetime_exceeded).
Notation run_at i := (run (s_host (node_of i)) (s_reports (node_of i)) (s_parallel (node_of i)) parse_record lifetime_exceeded).

(** task [i] of node [x] took [b] in *)
Definition took_in (tr : list event) (i : nat) (b : bundle) : Prop :=
  submitted tr i b \/
  exists b', received tr i b' /\ does tr i (SAdd b') (Some true) /\ primary b' = primary b /\ other_blocks b' = other_blocks b.
Definition Q_asks (k : kind) (h : list label) : Prop :=
  match k with KForward p => LAct (SUpdate (forwarding p)) false ∈ h \/ exists a, LAct (Route (forwarding p)) a ∈ h | _ => True end.
Lemma all_asks x k : gsafe (fun _ _ => True) (fun h _ => Q_asks k h) (Q_asks k) [] (task_of (s_host (node_of x)) (s_reports (node_of x)) (s_parallel (node_of x)) parse_record k).
Proof.
  destruct k as [b|b|p| | |]; cbn [Q_asks]; try (by apply gsafe_any).
  cbn [Pipeline.task_of]. apply safe_bind. unfold Pipeline.forward. rewrite sync_forwarding.
  apply safe_bind, safe_call. intros r. split; [done|]. destruct r; [|left; left].
  apply safe_bind, safe_call. intros ans. split; [done|]. cbn [app].
  eapply (gsafe_emits (fun _ => True)); [apply emits_all|done|..]; intros hs; intros; right; exists ans; apply elem_of_app; left; right; left.
Qed.
Lemma blocks_kept b b' : other_blocks b' = other_blocks b -> ~ must_delete b -> no_flagged b -> ~ must_delete b' /\ no_flagged b'.
Proof.
  intros E Hd Hf. assert (Hx : forall x, x ∈ b_blocks b' -> 11 <= k_type x -> x ∈ b_blocks b).
  { intros x Hx Ht. apply (elem_other _ _ Hx) in Ht. rewrite E in Ht. by apply elem_of_list_filter in Ht as [_ ?]. }
  split.
  - intros (x & H1 & H2 & H3). apply Hd. exists x. auto.
  - intros x H1 H2. auto.
Qed.
Lemma stuck_mishap tr i b : stuck (did i tr) -> mishap tr b.
Proof. intros (b' & st & rs & H). eapply no_report. apply did_elem in H. exact H. Qed.

(** the task that took the bundle in starts one that asks the agent *)
Lemma asks_for tr ms x i b : net_run tr ms -> all_ended (ms x) -> for_others (s_host (node_of x)) b -> bf_admin (b_flags b) = false ->
  ~ must_delete b -> no_flagged b -> took_in (proj x tr) i b ->
  (exists j p a, does (proj x tr) j (Route p) a /\ p_id p = bid b) \/ mishap (proj x tr) b \/
  (b_src b <> DtnNone /\ unknown_app (proj x tr) (b_src b) /\ submitted (proj x tr) i b).
Proof.
  intros Hn He Ho Ha Hd Hf Ht. assert (Hr := net_proj _ _ _ _ _ Hn x).
  assert (Hl : is_local_node_id (s_host (node_of x)) (b_dst b) = false) by (by apply bool_decide_eq_false).
  assert (HQ : forall k, tasks (proj x tr) !! i = Some k -> Q_onward (s_host (node_of x)) k (did i (proj x tr))).
  { intros k Hi. rewrite <- (run_tasks _ _ _ _ _ _ _ Hr), list_lookup_fmap in Hi.
    destruct (m_tasks (ms x) !! i) as [[k' q]|] eqn:E; [|done]. injection Hi as ->.
    eapply (run_ended _ _ _ _ _ (fun _ _ _ => True) (Q_onward _)); [|exact Hr|exact E|by eapply He]. intros k0. apply all_onward. }
  assert (Hout : onward (bid b) (b_dst b) false (did i (proj x tr)) ->
    (exists j p a, does (proj x tr) j (Route p) a /\ p_id p = bid b) \/ mishap (proj x tr) b).
  { intros [[[p H]|[[b' H]|[H|[[? _]|H]]]]|(p & Hp & H)]; try done.
    - apply did_elem in H. right. by eapply store_fails.
    - apply did_elem in H. right. eapply store_full. by left.
    - apply did_elem in H. right. by eapply is_gone.
    - right. by eapply stuck_mishap.
    - apply did_elem in H. assert (Hj : KForward p ∈ tasks (proj x tr)).
      { unfold tasks. rewrite elem_of_list_In, in_flat_map. exists (EStep i (LSpawn p)). split; [by apply elem_of_list_In|by left]. }
      apply elem_of_list_lookup in Hj as [j Hj]. assert (Hj' := Hj).
      rewrite <- (run_tasks _ _ _ _ _ _ _ Hr), list_lookup_fmap in Hj'.
      destruct (m_tasks (ms x) !! j) as [[k' q]|] eqn:E; [|done]. injection Hj' as ->.
      destruct (run_ended _ _ _ _ _ (fun _ _ _ => True) Q_asks _ _ _ _ _ (all_asks x) Hr E (He _ _ _ E)) as [H'|[a H']]; apply did_elem in H'.
      + right. by eapply store_fails.
      + left. exists j, (forwarding p), a. done. }
  destruct Ht as [Ht|(b' & Ht & Hadd & Hp & Hb)].
  - destruct (HQ _ Ht Hl) as [H|[Hs H]].
    + rewrite Ha in H. apply Hout in H. tauto.
    + right. right. split; [done|]. split; [|done]. exists i. left. by apply did_elem.
  - destruct (blocks_kept _ _ Hb Hd Hf) as [Hd' Hf'].
    assert (Hbid := primary_bid _ _ Hp). unfold primary in Hp. injection Hp as E1 E2 E3 E4 E5 E6 E7 E8 E9.
    assert (Hx : onward (bid b') (b_dst b') (bf_admin (b_flags b')) (did i (proj x tr))).
    { apply (HQ _ Ht); [by rewrite E2 || congruence|done| |by apply did_does].
      apply marks_none. apply Forall_forall. intros y Hy [Hy1 Hy2]. rewrite (Hf' y Hy Hy1) in Hy2. done. }
    rewrite Hbid in Hx. assert (Hadm : bf_admin (b_flags b') = false) by congruence. rewrite Hadm in Hx.
    assert (Hdst : b_dst b' = b_dst b) by congruence. rewrite Hdst in Hx. apply Hout in Hx. tauto.
Qed.
(** a bundle in the network with the id of [b] is a copy of it *)
Lemma is_copy tr ms x0 b x b' : net_run tr ms -> only_one tr x0 b -> no_flagged b -> b' ∈ born (proj x tr) -> bid b' = bid b ->
  primary b' = primary b /\ other_blocks b' = other_blocks b.
Proof.
  intros Hn Hu Hf Hb Hid. destruct (net_copies _ _ _ _ _ Hn tr [] (eq_sym (app_nil_r _)) _ _ Hb) as (j & b0 & n & f & [H1 H2 H3 H4]).
  assert (Hid0 : bid b0 = bid b) by (rewrite <- (primary_bid _ _ H2); done).
  destruct (Hu _ _ H1 Hid0) as [_ ->]. split; [done|]. by apply H4, no_flagged_clean.
Qed.
(** a bundle for which the agent is asked arrives at the next node *)
Lemma goes_on tr ms x y P b j p a : net_run tr ms -> all_ended (ms x) -> leads tr x y (bid b) P ->
  does (proj x tr) j (Route p) a -> p_id p = bid b ->
  (exists b', Arrives x y b' ∈ tr /\ bid b' = bid b) \/ mishap (proj x tr) b.
Proof.
  intros Hn He [Hl1 Hl2] Hd Hp. assert (Hr := net_proj _ _ _ _ _ Hn x).
  destruct (Hl1 _ _ _ Hd Hp) as (nodes & del & s & -> & Hs & Hc).
  apply elem_of_list_split in Hd as (t1 & t2 & E). assert (Hr2 := Hr). rewrite E in Hr2.
  assert (Hj : exists k q, m_tasks (ms x) !! j = Some (k, q)).
  { destruct (run_task_step _ _ _ _ _ _ _ _ _ _ Hr2) as (k & q & _ & Hk1 & _).
    assert (Hk : tasks (proj x tr) !! j = Some k) by (rewrite E, tasks_app; by apply lookup_app_l_Some).
    rewrite <- (run_tasks _ _ _ _ _ _ _ Hr), list_lookup_fmap in Hk. destruct (m_tasks (ms x) !! j) as [[k' q']|]; [eauto|done]. }
  destruct Hj as (k & q & Hj).
  assert (Hmono : forall o r, does t2 j o r -> does (proj x tr) j o r).
  { intros o r H. rewrite E. apply elem_of_app. right. by right. }
  destruct (named_tries _ _ _ _ _ _ _ _ _ _ _ _ s Hr2) as [(b' & r & Ht & Hb)|Hh]; [by exists k, q; split; [|eapply He]|done|..].
  - left. exists b'. rewrite Hp in Hb. split; [|done]. eapply Hl2; [by apply Hmono|done|done].
  - right. rewrite Hp in Hh. destruct Hh as [H|H|b' z H1 H2 H3].
    + eapply is_gone. by apply Hmono.
    + eapply may_not_leave. rewrite E. change (EStep j (LAct (Route p) (Some (nodes, del))) :: t2) with ([EStep j (LAct (Route p) (Some (nodes, del)))] ++ t2).
      apply over_limit_mono, over_limit_mono. exact H.
    + eapply bad_prev; [by apply Hmono|done|done].
Qed.
(** what arrives is taken in, then or before *)
Lemma stored_since id t : stored id t = true ->
  (exists i b, EStep i (LAct (SAdd b) (Some true)) ∈ t /\ bid b = id) \/ (exists i b, EStep i (LAct (SPush b) true) ∈ t /\ bid b = id).
Proof.
  unfold stored. induction t as [|e t IH] using rev_ind; [done|]. rewrite fold_left_app. cbn [fold_left].
  intros H. assert (Hc : fold_left (store_effect id) t false = true \/
    (exists i b, e = EStep i (LAct (SAdd b) (Some true)) /\ bid b = id) \/ (exists i b, e = EStep i (LAct (SPush b) true) /\ bid b = id)).
  { destruct e as [| | | | | |i [[] r| |]]; cbn in H; auto.
    - destruct r; [|auto]. destruct (decide (bid b = id)); [right; right; eauto|auto].
    - destruct r as [[]|]; [|auto|auto]. destruct (decide (bid b = id)); [right; left; eauto|auto].
    - destruct r; [|auto]. destruct (decide (id0 = id)); [done|auto]. }
  destruct Hc as [Hc|[(i & b & -> & Hb)|(i & b & -> & Hb)]].
  - destruct (IH Hc) as [(i & b & Hi & Hb)|(i & b & Hi & Hb)]; [left|right]; exists i, b; (split; [|done]); apply elem_of_app; by left.
  - left. exists i, b. split; [|done]. apply elem_of_app. right. left.
  - right. exists i, b. split; [|done]. apply elem_of_app. right. left.
Qed.
Lemma arrives_proj x y b tr : Arrives x y b ∈ tr -> EStart (KReceive b) ∈ proj y tr.
Proof. intros H. apply elem_of_list_In, in_flat_map. exists (Arrives x y b). split; [by apply elem_of_list_In|]. cbn. rewrite decide_True by done. by left. Qed.
Lemma made_at x tr e b : EStart (KSubmit b) = e \/ (exists i b1 st rs, e = EStep i (LAct (NewReport b1 st rs) (Some b))) -> e ∈ proj x tr -> made tr x b.
Proof.
  intros H He. exists e. split.
  - unfold proj in He. apply elem_of_list_In, in_flat_map in He as (v & Hv & Hi). apply elem_of_list_In in Hv.
    destruct v as [k v|j k b'|j b'|j k b']; cbn in Hi; try destruct (decide (k = x)) as [->|]; try done; destruct Hi as [E|[]]; subst; try done;
      destruct H as [H|(? & ? & ? & ? & H)]; done.
  - destruct H as [<-|(i & b1 & st & rs & ->)]; [by left|right; eauto].
Qed.
Lemma added_in tr ms x0 y b i b' : net_run tr ms -> only_one tr x0 b -> no_flagged b -> does (proj y tr) i (SAdd b') (Some true) -> bid b' = bid b ->
  took_in (proj y tr) i b.
Proof.
  intros Hn Hu Hf Hd Hid. assert (Hr := net_proj _ _ _ _ _ Hn y). assert (Hd' := Hd).
  apply elem_of_list_split in Hd' as (t1 & t2 & E). assert (Hr2 := Hr). rewrite E in Hr2.
  destruct (run_safe _ _ _ _ _ I_prov t1 i _ t2 _ (prov _ _ _ _) Hr2) as (k & Hk & HI). cbn in HI. subst k.
  assert (Hk' : tasks (proj y tr) !! i = Some (KReceive b')) by (rewrite E, tasks_app; by apply lookup_app_l_Some).
  right. exists b'. split; [done|]. split; [done|]. eapply is_copy; [done|done|done| |done]. eapply tasks_born; [done|done].
Qed.
(** what a node stored it took in *)
Lemma stored_taken tr ms x0 y b t1 t2 : net_run tr ms -> only_one tr x0 b -> y <> x0 -> no_flagged b ->
  proj y tr = t1 ++ t2 -> stored (bid b) t1 = true -> exists i, took_in (proj y tr) i b.
Proof.
  intros Hn Hu Hy Hf Et Hst. assert (Hr := net_proj _ _ _ _ _ Hn y).
  assert (Hmono : forall e, e ∈ t1 -> e ∈ proj y tr) by (intros e H; rewrite Et; apply elem_of_app; by left).
  destruct (stored_since _ _ Hst) as [(i' & b1 & Hi & Hb)|(i' & b1 & Hi & Hb)].
  - exists i'. eapply added_in; [done|done|done|by apply Hmono|congruence].
  - assert (Hi' := Hmono _ Hi). apply elem_of_list_split in Hi' as (ta & tb & E'). assert (Hr3 := Hr). rewrite E' in Hr3.
    destruct (run_cause _ _ _ _ _ _ _ _ _ _ Hr3) as (k & Hk1 & HI). cbn in HI.
    assert (Hsub : forall l, l ∈ did i' ta -> EStep i' l ∈ proj y tr).
    { intros l H. apply did_elem in H. rewrite E'. apply elem_of_app. by left. }
    assert (Hself : forall z, made tr y z -> bid z = bid b -> False) by (intros z Hz Hzb; destruct (Hu _ _ Hz Hzb); done).
    destruct HI as [(b2 & st & rs & Hrep)|HI].
    + exfalso. apply (Hself b1); [|congruence]. eapply made_at; [|by apply Hsub]. right. eauto.
    + destruct k as [b2|b2| | | |]; try done.
      * destruct HI as (_ & Hadd & l & -> & _). exists i'. eapply added_in; [done|done|done|by apply Hsub|]. rewrite <- Hb. done.
      * destruct HI as [-> _]. exfalso. apply (Hself b2); [|congruence]. eapply made_at; [by left|].
        apply elem_of_list_lookup_2 in Hk1. unfold tasks in Hk1. rewrite elem_of_list_In, in_flat_map in Hk1. destruct Hk1 as (e & He1 & Hin).
        apply elem_of_list_In in He1. rewrite E'. apply elem_of_app. left.
        destruct e as [k'| | | | | |j l]; cbn in Hin; try done.
        -- destruct Hin as [->|[]]. done.
        -- destruct l; cbn in Hin; try done. destruct Hin as [?|[]]; done.
Qed.
Lemma comes_in tr ms x0 x y b b' : net_run tr ms -> all_ended (ms y) -> only_one tr x0 b -> y <> x0 -> no_flagged b ->
  Arrives x y b' ∈ tr -> bid b' = bid b ->
  (exists i, took_in (proj y tr) i b) \/ mishap (proj y tr) b.
Proof.
  intros Hn He Hu Hy Hf Ha Hid. assert (Hr := net_proj _ _ _ _ _ Hn y).
  assert (Hk : KReceive b' ∈ tasks (proj y tr)).
  { unfold tasks. rewrite elem_of_list_In, in_flat_map. exists (EStart (KReceive b')). split; [|by left]. apply elem_of_list_In. by eapply arrives_proj. }
  apply elem_of_list_lookup in Hk as [i Hk]. assert (Hk' := Hk).
  rewrite <- (run_tasks _ _ _ _ _ _ _ Hr), list_lookup_fmap in Hk'.
  destruct (m_tasks (ms y) !! i) as [[k' q]|] eqn:E; [|done]. injection Hk' as ->.
  assert (HQ := run_ended _ _ _ _ _ _ _ _ _ _ _ _ (all_recv _ _ _ _ lifetime_exceeded) Hr E (He _ _ _ E)). cbn in HQ.
  destruct HQ as [HQ|[HQ|[rest HQ]]].
  - right. eapply store_full. right. apply did_elem. rewrite HQ. left.
  - assert (Hd : does (proj y tr) i (SAdd b') (Some false)) by (apply did_elem; rewrite HQ; left).
    apply elem_of_list_split in Hd as (t1 & t2 & Et). assert (Hr2 := Hr). rewrite Et in Hr2.
    assert (Hans := run_answers _ _ _ _ _ _ _ _ _ _ Hr2). cbn in Hans. symmetry in Hans. apply negb_false_iff in Hans.
    rewrite Hid in Hans. left. by eapply stored_taken.
  - left. exists i. eapply added_in; [done|done|done| |done]. apply did_elem. rewrite HQ. left.
Qed.
(** at the last node the application gets it *)
Lemma arrives_home tr ms x0 y b i : net_run tr ms -> all_ended (ms y) -> only_one tr x0 b -> bf_admin (b_flags b) = false ->
  ~ must_delete b -> no_flagged b -> took_in (proj y tr) i b ->
  delivered_at tr y b \/ mishap (proj y tr) b \/ unknown_app (proj y tr) (b_dst b) \/
  (b_src b <> DtnNone /\ unknown_app (proj y tr) (b_src b) /\ submitted (proj y tr) i b).
Proof.
  intros Hn He Hu Ha Hd Hf Ht. assert (Hr := net_proj _ _ _ _ _ Hn y).
  assert (HQ : forall k, tasks (proj y tr) !! i = Some k -> Q_outcome k (did i (proj y tr))).
  { intros k Hi. rewrite <- (run_tasks _ _ _ _ _ _ _ Hr), list_lookup_fmap in Hi.
    destruct (m_tasks (ms y) !! i) as [[k' q]|] eqn:E; [|done]. injection Hi as ->.
    eapply (run_ended _ _ _ _ _ (fun _ _ _ => True) Q_outcome); [|exact Hr|exact E|by eapply He]. intros k0. apply all_outcome. }
  assert (Hdel : forall b' r, bid b' = bid b -> does (proj y tr) i (Deliver (b_dst b) b') r -> r = Queued \/ r = Handed -> delivered_at tr y b).
  { intros b' r Hb H Hq. exists i, b', r. apply at_of_proj in H. split; [done|]. split; [done|].
    apply elem_of_list_split in H as (t1 & t2 & E). assert (Hn2 := Hn). rewrite E in Hn2.
    destruct (delivered_copy _ _ _ _ _ _ _ _ _ _ _ Hn2) as (j & b0 & n & f & [H1 H2 H3 H4] & _).
    assert (Hid0 : bid b0 = bid b) by (rewrite <- (primary_bid _ _ H2); done).
    destruct (Hu j b0) as [_ ->]; [rewrite E; by apply made_mono|done|]. split; [done|].
    assert (Ho : other_blocks b' = other_blocks b) by (by apply H4, no_flagged_clean). split; [by apply payload_other|done]. }
  assert (Hidt : forall b' r, does (proj y tr) i (Deliver (b_dst b) b') r -> bid b' = bid b).
  { intros b' r (t1 & t2 & E)%elem_of_list_split. assert (Hr2 := Hr). rewrite E in Hr2.
    destruct (handover _ _ _ _ _ _ _ _ _ _ _ _ _ Hr2 eq_refl) as (k & b1 & Hk & Hacc & _ & Hb & _).
    assert (Hk' : tasks (proj y tr) !! i = Some k) by (rewrite E, tasks_app; by apply lookup_app_l_Some).
    rewrite Hb. unfold took_in, submitted, received in Ht. rewrite Hk' in Ht.
    destruct Ht as [[= ->]|(b2 & [= ->] & _ & Hp & _)], Hacc as [[[=] _]|[=]]; try (by subst); subst; by apply primary_bid. }
  assert (Hout : outcome (bid b) (b_dst b) (did i (proj y tr)) ->
    delivered_at tr y b \/ mishap (proj y tr) b \/ unknown_app (proj y tr) (b_dst b)).
  { intros [[[p H]|[[b' H]|[H|[H|H]]]]|(b' & r & H)].
    - apply did_elem in H. right. left. by eapply store_fails.
    - apply did_elem in H. right. left. eapply store_full. by left.
    - apply did_elem in H. right. left. by eapply is_gone.
    - apply did_elem in H. right. right. exists i. by left.
    - right. left. by eapply stuck_mishap.
    - apply did_elem in H. assert (Hb := Hidt _ _ H).
      destruct r; [right; right; exists i; right; by exists b'|left; eapply Hdel; [exact Hb|exact H|]; auto..]. }
  destruct Ht as [Ht|(b' & Ht & Hadd & Hp & Hb)].
  - destruct (HQ _ Ht Ha) as [H|[Hs H]].
    + apply Hout in H. tauto.
    + do 3 right. split; [done|]. split; [|done]. exists i. left. by apply did_elem.
  - destruct (blocks_kept _ _ Hb Hd Hf) as [Hd' Hf'].
    assert (Hbid := primary_bid _ _ Hp). unfold primary in Hp. injection Hp as E1 E2 E3 E4 E5 E6 E7 E8 E9.
    assert (Hx : outcome (bid b') (b_dst b') (did i (proj y tr))).
    { apply (HQ _ Ht); [|by apply did_does]. split; [congruence|]. split; [done|].
      apply marks_none. apply Forall_forall. intros z Hz [Hz1 Hz2]. rewrite (Hf' z Hz Hz1) in Hz2. done. }
    rewrite Hbid in Hx. assert (Hdst : b_dst b' = b_dst b) by congruence. rewrite Hdst in Hx. apply Hout in Hx. tauto.
Qed.

(** *** Along a route, for any kind of hop that passes the bundle on *)
Fixpoint along (hop : nat -> nat -> Prop) (ms : nat -> machine) (b : bundle) (x : nat) (l : list nat) : Prop :=
  all_ended (ms x) /\
  match l with
  | [] => True
  | y :: l => for_others (s_host (node_of x)) b /\ hop x y /\ along hop ms b y l
  end.
Lemma deliver_along (hop : nat -> nat -> Prop) tr ms x0 b :
  net_run tr ms -> only_one tr x0 b -> bf_admin (b_flags b) = false -> ~ must_delete b -> no_flagged b ->
  (forall x y j p a, hop x y -> all_ended (ms x) -> all_ended (ms y) -> y <> x0 -> does (proj x tr) j (Route p) a -> p_id p = bid b ->
     (exists i, took_in (proj y tr) i b) \/ mishap (proj x tr) b \/ mishap (proj y tr) b) ->
  forall l i, submitted (proj x0 tr) i b -> along hop ms b x0 l -> x0 ∉ l ->
  delivered_at tr (List.last l x0) b \/
  (exists x, x ∈ x0 :: l /\ mishap (proj x tr) b) \/
  (b_src b <> DtnNone /\ unknown_app (proj x0 tr) (b_src b)) \/
  unknown_app (proj (List.last l x0) tr) (b_dst b).
Proof.
  intros Hn Hu Ha Hd Hf Hhop l i Hi Hrt Hx0.
  assert (Hgen : forall l x i, took_in (proj x tr) i b -> along hop ms b x l -> x0 ∉ l -> (submitted (proj x tr) i b -> x = x0) ->
    delivered_at tr (List.last l x) b \/ (exists y, y ∈ x :: l /\ mishap (proj y tr) b) \/
    (b_src b <> DtnNone /\ unknown_app (proj x0 tr) (b_src b)) \/ unknown_app (proj (List.last l x) tr) (b_dst b)).
  { clear l i Hi Hrt Hx0. induction l as [|y l IH]; intros x i Ht Hrt Hx0 Hs.
    - destruct Hrt as [He _]. cbn [List.last]. destruct (arrives_home _ _ _ _ _ _ Hn He Hu Ha Hd Hf Ht) as [H|[H|[H|(H1 & H2 & H3)]]].
      + by left.
      + right. left. exists x. split; [left|done].
      + do 3 right. done.
      + right. right. left. rewrite (Hs H3) in H2. done.
    - destruct Hrt as (He & Ho & Hl & Hrt).
      assert (Hlast : List.last (y :: l) x = List.last l y).
      { clear. revert y. induction l as [|z l IH]; intros y; [done|]. change (List.last (y :: z :: l) x) with (List.last (z :: l) x). rewrite IH.
        destruct l; [done|]. cbn. clear. revert n. induction l as [|w l IH]; intros n; [done|]. cbn. apply IH. }
      destruct (asks_for _ _ _ _ _ Hn He Ho Ha Hd Hf Ht) as [(j & p & a & H1 & H2)|[H|(H1 & H2 & H3)]].
      + assert (Hy : y <> x0) by (intros ->; apply Hx0; left).
        assert (Hey : all_ended (ms y)) by (destruct l; apply Hrt).
        destruct (Hhop _ _ _ _ _ Hl He Hey Hy H1 H2) as [[i' Hi']|[H|H]];
          [|right; left; exists x; split; [left|done]|right; left; exists y; split; [right; left|done]].
        rewrite Hlast. destruct (IH y i' Hi' Hrt) as [H|[(z & Hz & H)|[H|H]]]; try tauto.
        * intros Hin. apply Hx0. by right.
        * intros Hsub. exfalso. apply Hy. assert (Hm : made tr y b); [|by apply (Hu _ _ Hm)].
          eapply made_at; [by left|]. unfold submitted in Hsub. apply elem_of_list_lookup_2 in Hsub. unfold tasks in Hsub.
          rewrite elem_of_list_In, in_flat_map in Hsub. destruct Hsub as (e & He1 & Hin). apply elem_of_list_In in He1.
          destruct e as [k'| | | | | |jj ll]; cbn in Hin; try done.
          -- destruct Hin as [->|[]]. done.
          -- destruct ll; cbn in Hin; try done. destruct Hin as [?|[]]; done.
        * right. left. exists z. split; [by right|done].
      + right. left. exists x. split; [left|done].
      + right. right. left. rewrite (Hs H3) in H2. done. }
  apply (Hgen l x0 i); [by left|done|done|done].
Qed.
Lemma leads_passes tr ms x0 x y b j p a : net_run tr ms -> only_one tr x0 b -> no_flagged b -> (exists P, leads tr x y (bid b) P) ->
  all_ended (ms x) -> all_ended (ms y) -> y <> x0 -> does (proj x tr) j (Route p) a -> p_id p = bid b ->
  (exists i, took_in (proj y tr) i b) \/ mishap (proj x tr) b \/ mishap (proj y tr) b.
Proof.
  intros Hn Hu Hf [P Hl] He Hey Hy H1 H2. destruct (goes_on _ _ _ _ _ _ _ _ _ Hn He Hl H1 H2) as [(b' & H3 & H4)|H]; [|auto].
  destruct (comes_in _ _ _ _ _ _ _ Hn Hey Hu Hy Hf H3 H4) as [H|H]; auto.
Qed.

(** ** C160 *)
(** A bundle submitted at the first node of a route is handed to the application it
    is for at the last node, unchanged but for hop count, age and previous node; or
    there is a node of the route where something went wrong, the source is not
    registered at the first node, or the destination is not at the last one. *)
Theorem C160_route_delivers : forall tr ms x0 l b i,
  net_run tr ms -> submitted (proj x0 tr) i b -> on_route node_of tr ms b x0 l -> x0 ∉ l ->
  only_one tr x0 b -> bf_admin (b_flags b) = false -> ~ must_delete b -> no_flagged b ->
  delivered_at tr (List.last l x0) b \/
  (exists x, x ∈ x0 :: l /\ mishap (proj x tr) b) \/
  (b_src b <> DtnNone /\ unknown_app (proj x0 tr) (b_src b)) \/
  unknown_app (proj (List.last l x0) tr) (b_dst b).
Proof.
  intros tr ms x0 l b i Hn Hi Hrt Hx0 Hu Ha Hd Hf.
  eapply (deliver_along (fun x y => exists P, leads tr x y (bid b) P)); try done.
  - intros. by eapply leads_passes.
  - clear Hi Hx0. revert Hrt. generalize x0 as x. induction l as [|y l IH]; intros x Hrt; [exact Hrt|].
    destruct Hrt as (H1 & H2 & H3 & H4). split; [done|]. split; [done|]. split; [done|]. by apply IH.
Qed.

(** When a node leads to the next: with flooding, if the next is a neighbour that
    can be reached whenever the agent is asked for the bundle; *)
Theorem C160_flooding_leads : forall tr ms x y id n cs,
  net_run tr ms -> joint (arun f_step (Some tt) cs) (proj x tr) ->
  (forall p ps clas, RSender p ps clas ∈ cs -> p_id p = id -> NoDup (map node_name ps) /\ reach_node ps clas n) ->
  (forall i s b r, does (proj x tr) i (Transfer s b) r -> bid b = id -> called s = n -> Arrives x y b ∈ tr) ->
  leads tr x y id (fun s => called s = n).
Proof.
  intros tr ms x y id n cs Hn Hj Hcs Ht. split; [|done]. intros i p a (t1 & t2 & E)%elem_of_list_split Hp.
  destruct (agent_query _ _ _ _ t1 i p a t2 Hj E) as (cs1 & ps & clas & cs2 & Ecs & Hj1 & Hrun).
  assert (Hin : (RSender p ps clas, a) ∈ arun f_step (Some tt) (cs1 ++ [RSender p ps clas])).
  { rewrite Hrun. apply elem_of_app. right. left. }
  destruct (Hcs p ps clas) as [Hnd Hre]; [rewrite Ecs; apply elem_of_app; right; left|done|].
  destruct (C26_flooding _ _ _ _ _ Hin Hnd) as (ss & -> & _ & Hss). apply Hss in Hre as (s & Hs & Hc). eauto 10.
Qed.
(** with static routes, if a rule for the bundle has the next node as its next hop,
    which can be reached, and the rules before it do not apply or cannot be used. *)
Theorem C160_static_leads : forall glob rs0 tr ms x y id via src dst cs,
  net_run tr ms -> joint (arun (st_step glob) (Some rs0) cs) (proj x tr) -> addressed (proj x tr) id src dst ->
  (forall cs1 p ps clas cs2, cs = cs1 ++ RSender p ps clas :: cs2 -> p_id p = id ->
     exists rs1 r rs2, table rs0 cs1 = rs1 ++ r :: rs2 /\ rt_via r = via /\ next_hop_reachable clas ps r /\
       glob (rt_src r) (eid_string src) = true /\ glob (rt_dst r) (eid_string dst) = true /\
       forall r', r' ∈ rs1 -> glob (rt_src r') (eid_string src) = false \/ glob (rt_dst r') (eid_string dst) = false \/ ~ next_hop_reachable clas ps r') ->
  (forall i p a, does (proj x tr) i (Route p) a -> a <> None) ->
  (forall i s b r, does (proj x tr) i (Transfer s b) r -> bid b = id -> eid_string (sd_hop s) = via -> Arrives x y b ∈ tr) ->
  leads tr x y id (fun s => eid_string (sd_hop s) = via).
Proof.
  intros glob rs0 tr ms x y id via src dst cs Hn Hj Ha Hcs Hans Ht. split; [|done]. intros i p a Hd Hp.
  assert (Hr := net_proj _ _ _ _ _ Hn x). destruct a as [[ss del]|]; [|by destruct (Hans _ _ _ Hd)].
  rewrite <- Hp in Ha. destruct (query_addressed _ _ _ _ _ _ _ _ _ _ _ _ Hr Hd Ha) as [Hsrc Hdst].
  apply elem_of_list_split in Hd as (t1 & t2 & E).
  destruct (agent_query _ _ _ _ t1 i p (Some (ss, del)) t2 Hj E) as (cs1 & ps & clas & cs2 & Ecs & Hj1 & Hrun).
  assert (Hq : nth_error (arun (st_step glob) (Some rs0) (cs1 ++ RSender p ps clas :: [])) (length cs1) = Some (RSender p ps clas, Some (ss, del))).
  { rewrite Hrun. assert (Hlen : length (arun (st_step glob) (Some rs0) cs1) = length cs1) by (by rewrite <- (map_length fst), arun_cmds).
    rewrite nth_error_app2 by lia. by rewrite Hlen, Nat.sub_diag. }
  destruct (Hcs _ _ _ _ _ Ecs Hp) as (ra & r & rb & Et & Hv & Hre & Hg1 & Hg2 & Hno).
  assert (Hgood : forall r', applies glob p r' <-> glob (rt_src r') (eid_string src) = true /\ glob (rt_dst r') (eid_string dst) = true).
  { intros r'. unfold applies. by rewrite Hsrc, Hdst. }
  destruct (C29_first_matching_route _ _ _ _ _ _ _ _ _ Hq) as [(-> & _ & Hno2)|(rs1 & y0 & rs2 & s & Et2 & [Hy1 Hy2] & Hno2 & -> & Hv2 & _)].
  - exfalso. apply (Hno2 r); [rewrite Et; apply elem_of_app; right; left|]. by rewrite Hgood.
  - exists [s], del, s. split; [done|]. split; [left|]. rewrite Hv2, <- Hv. f_equal.
    rewrite Et in Et2. clear - Et2 Hno Hno2 Hgood Hre Hg1 Hg2 Hy1 Hy2. apply Hgood in Hy1.
    revert rs1 Et2 Hno2. induction ra as [|z ra IH]; intros rs1 Et2 Hno2.
    + destruct rs1 as [|z rs1]; [cbn in Et2; congruence|]. cbn in Et2. injection Et2 as -> _. exfalso. apply (Hno2 z); [left|]. by rewrite Hgood.
    + destruct rs1 as [|z' rs1]; cbn in Et2; injection Et2 as -> Et2.
      * exfalso. destruct (Hno y0) as [H|[H|H]]; [left|..]; [destruct Hy1; congruence..|done].
      * apply (IH (fun r' H => Hno r' (elem_of_list_further _ _ _ H)) rs1 Et2). intros r' H. apply Hno2. by right.
Qed.
End proofs.
Print Assumptions C160_route_delivers.
Print Assumptions C160_flooding_leads.
Print Assumptions C160_static_leads.

(** ** A concrete case *)
(** node 0, 1 and 2 of Props_Network.v; a letter from node 0 to node 2 *)
Definition mail := letter "n2" [Block 7 3 no_kflags (CAge 5); Block 192 2 no_kflags (CData [9]); text].
Definition run160 := row_go [NStart 0 (KSubmit mail); NRun 0 0; NRun 0 1; NSend 0 1; NRun 1 0; NRun 1 1; NSend 1 2; NRun 2 0].
Definition asks_of (tr : list event) : list (string * option answer) :=
  omap (fun e => match e return option (string * option answer) with EStep _ (LAct (Route p) a) => Some (p_id p, a) | _ => None end) tr.
Definition sends_of (tr : list event) : list (sender * bundle) :=
  omap (fun e => match e with EStep _ (LAct (Transfer s b) _) => Some (s, b) | _ => None end) tr.
Lemma asks_spec tr i p a : does tr i (Route p) a -> (p_id p, a) ∈ asks_of tr.
Proof. intros H. apply elem_of_list_omap. by exists (EStep i (LAct (Route p) a)). Qed.
Lemma sends_spec tr i s b r : does tr i (Transfer s b) r -> (s, b) ∈ sends_of tr.
Proof. intros H. apply elem_of_list_omap. by exists (EStep i (LAct (Transfer s b) r)). Qed.
Lemma leads_ok tr x y id s : asks_of (proj x tr) = [(id, Some ([s], false))] ->
  map fst (sends_of (proj x tr)) = [s] -> forallb (fun m => bool_decide ((true, x, y, snd m) ∈ moves tr)) (sends_of (proj x tr)) = true ->
  leads tr x y id (fun s' => s' = s).
Proof.
  intros H1 H2 H3. split.
  - intros i p a Hd _. apply asks_spec in Hd. rewrite H1 in Hd. apply elem_of_list_singleton in Hd. injection Hd as _ ->.
    exists [s], false, s. split; [done|]. split; [left|done].
  - intros i s' b r Hd _ ->. apply sends_spec in Hd. apply arrives_moves. rewrite forallb_forall in H3. apply elem_of_list_In in Hd. specialize (H3 _ Hd). by apply bool_decide_eq_true in H3.
Qed.
Lemma all_ended_ok m : all_over m = true -> all_ended m.
Proof.
  intros H i k q E. assert (Hi : (i < length (m_tasks m))%nat) by (by eapply lookup_lt_Some).
  destruct (all_over_ok _ _ H Hi) as (k' & q' & E' & He). rewrite E in E'. by injection E' as <- <-.
Qed.
Definition is_delivery (x : nat) (b : bundle) (e : netev) : bool :=
  match e return bool with
  | At y (EStep _ (LAct (Deliver d b') r)) =>
      match r : Pipeline.handed with NoEndpoint => false | _ => bool_decide (y = x /\ d = b_dst b /\ primary b' = primary b /\ other_blocks b' = other_blocks b) end
  | _ => false
  end.
Lemma delivered_ok tr x b : existsb (is_delivery x b) tr = true -> delivered_at tr x b.
Proof.
  intros (e & He & Hd)%existsb_exists. apply elem_of_list_In in He. destruct e as [y e| | |]; try done.
  destruct e as [| | | | | |i [[] r| |]]; try done. cbn in Hd. exists i, b0, r. destruct r; [done|..].
  all: apply bool_decide_eq_true in Hd as (-> & -> & H1 & H2); (split; [done|]); (split; [by auto|]); (split; [done|]); (split; [by apply payload_other|done]).
Qed.
Example C160_case :
  net_run row (fun _ => None) (fun _ _ => false) (fst run160) (snd run160) /\
  submitted (proj 0 (fst run160)) 0 mail /\
  on_route row (fst run160) (snd run160) mail 0 [1%nat; 2%nat] /\
  only_one (fst run160) 0 mail /\ ~ must_delete mail /\ no_flagged mail /\
  delivered_at (fst run160) 2 mail.
Proof.
  assert (Hnd : ~ must_delete mail).
  { intros (x & Hx & _ & Hy). cbn in Hx. repeat (apply elem_of_cons in Hx as [-> |Hx]; [done|]). by apply elem_of_nil in Hx. }
  assert (Hnf : no_flagged mail).
  { intros x Hx _. cbn in Hx. repeat (apply elem_of_cons in Hx as [-> |Hx]; [done|]). by apply elem_of_nil in Hx. }
  assert (Hu : only_one (fst run160) 0 mail).
  { intros j b' Hm _. apply mades_spec in Hm. replace (mades (fst run160)) with [(0%nat, mail)] in Hm by (by vm_compute).
    apply elem_of_list_singleton in Hm. by injection Hm as -> ->. }
  assert (Hs : submitted (proj 0 (fst run160)) 0 mail) by (by vm_compute).
  assert (Hrt : on_route row (fst run160) (snd run160) mail 0 [1%nat; 2%nat]).
  { cbn [on_route]. split; [apply all_ended_ok; by vm_compute|]. split; [by vm_compute|]. split.
    { eexists. apply (leads_ok _ _ _ _ (toward 0)); by vm_compute. }
    split; [apply all_ended_ok; by vm_compute|]. split; [by vm_compute|]. split.
    { eexists. apply (leads_ok _ _ _ _ (toward 1)); by vm_compute. }
    split; [apply all_ended_ok; by vm_compute|done]. }
  assert (Hrun : net_run row (fun _ => None) (fun _ _ => false) (fst run160) (snd run160)) by apply row_ok.
  split; [exact Hrun|]. split; [exact Hs|]. split; [exact Hrt|]. split; [exact Hu|]. split; [exact Hnd|]. split; [exact Hnf|].
  apply delivered_ok. by vm_compute.
Qed.
(** Node 0 uses flooding and has another neighbour, z, that nothing gets to; node 1
    uses static routes. *)
Definition row_agents (i : nat) : oracle :=
  match i with 0%nat => fate (Some ([hop "z"; hop "n1"], false)) true | _ => fate (Some ([hop "n2"], true)) true end.
Definition run160a := nscript row (fun _ => None) (fun _ _ => false) row_agents
  [NStart 0 (KSubmit mail); NRun 0 0; NRun 0 1; NSend 0 1; NRun 1 0; NRun 1 1; NSend 1 2; NRun 2 0] [] row_start.
Definition rules1 : list route := [Routing.Route 1 "*" "dtn://n7/in" "dtn://n2/"; Routing.Route 2 "*" "*" "dtn://gone/"; Routing.Route 3 "*" "dtn://n2/in" "dtn://n2/"].
Definition said0 := annotate [["z"; "n1"]] (proj 0 (fst run160a)).
Definition said1 := annotate [["n2"]] (proj 1 (fst run160a)).
Lemma said0_agent : arun f_step (Some tt) (map fst said0) = said0.
Proof. by vm_compute. Qed.
Lemma said1_agent : arun (st_step Props_Static.ex_glob) (Some rules1) (map fst said1) = said1.
Proof. by vm_compute. Qed.
Definition queries (cs : list rcmd) : list (list peer * list cla) := omap (fun c => match c with RSender _ ps clas => Some (ps, clas) | _ => None end) cs.
Example C160_agents :
  net_run row (fun _ => None) (fun _ _ => false) (fst run160a) (snd run160a) /\
  leads (fst run160a) 0 1 (bid mail) (fun s => called s = "n1") /\
  leads (fst run160a) 1 2 (bid mail) (fun s => eid_string (sd_hop s) = "dtn://n2/") /\
  delivered_at (fst run160a) 2 mail.
Proof.
  assert (Hrun : net_run row (fun _ => None) (fun _ _ => false) (fst run160a) (snd run160a)) by (apply nscript_run, net_init; intros i; apply start_initial).
  split; [exact Hrun|]. split; [|split].
  - apply (C160_flooding_leads _ _ _ _ _ _ _ _ _ (map fst said0) Hrun).
    + rewrite said0_agent. apply annotate_joint.
    + intros p ps clas Hin _. assert (Hq : (ps, clas) ∈ queries (map fst said0)).
      { apply elem_of_list_omap. by exists (RSender p ps clas). }
      replace (queries (map fst said0)) with [(map neighbour ["z"; "n1"], layers)] in Hq by (by vm_compute).
      apply elem_of_list_singleton in Hq. injection Hq as -> ->. split.
      * apply (bool_decide_unpack _). by vm_compute.
      * exists (neighbour "n1"). split; [right; left|]. split; [done|]. by eexists _, _; split; [left|split; [left|]].
    + intros i s b r Hd _ _. apply sends_spec in Hd. apply arrives_moves.
      assert (Hf : forallb (fun m => bool_decide ((true, 0%nat, 1%nat, snd m) ∈ moves (fst run160a))) (sends_of (proj 0 (fst run160a))) = true) by (by vm_compute).
      rewrite forallb_forall in Hf. apply elem_of_list_In in Hd. specialize (Hf _ Hd). by apply bool_decide_eq_true in Hf.
  - apply (C160_static_leads _ _ _ Props_Static.ex_glob rules1 _ _ _ _ _ _ (Dtn "n0" "in") (Dtn "n2" "in") (map fst said1) Hrun).
    + rewrite said1_agent. apply annotate_joint.
    + intros x Hx _. assert (Hf : forallb (fun b => bool_decide (b_src b = Dtn "n0" "in" /\ b_dst b = Dtn "n2" "in")) (entered (proj 1 (fst run160a))) = true) by (by vm_compute).
      rewrite forallb_forall in Hf. apply elem_of_list_In in Hx. specialize (Hf _ Hx). by apply bool_decide_eq_true in Hf.
    + intros cs1 p ps clas cs2 E _. assert (Hq : (ps, clas) ∈ queries (map fst said1)).
      { apply elem_of_list_omap. exists (RSender p ps clas). split; [|done]. rewrite E. apply elem_of_app. right. left. }
      replace (queries (map fst said1)) with [(map neighbour ["n2"], layers)] in Hq by (by vm_compute).
      apply elem_of_list_singleton in Hq. injection Hq as -> ->.
      assert (Ht : table rules1 cs1 = rules1).
      { assert (Hno : forallb (fun c => match c with RCommand _ _ => false | _ => true end) (map fst said1) = true) by (by vm_compute).
        rewrite E, forallb_app in Hno. apply andb_true_iff in Hno as [Hno _]. clear - Hno.
        induction cs1 as [|c cs1 IH]; [done|]. apply andb_true_iff in Hno as [Hc Hno]. destruct c; [by apply IH..|done]. }
      rewrite Ht. clear E Hrun Ht. exists (take 2 rules1), (Routing.Route 3 "*" "dtn://n2/in" "dtn://n2/"), []. split; [reflexivity|]. split; [reflexivity|]. split; [|split; [by vm_compute|split; [by vm_compute|]]].
      * exists (neighbour "n2"), ("mtcp", Some 16162), (Cla 1 "mtcp" true 16162). split; [left|]. split; [by vm_compute|]. split; [left|]. split; [left|done].
      * intros r' Hr'. apply elem_of_cons in Hr' as [->|Hr']; [right; left; done|]. apply elem_of_list_singleton in Hr' as ->. right. right.
        intros (q & w & c & Hq & Hv & _). apply elem_of_list_singleton in Hq as ->. vm_compute in Hv. discriminate Hv.
    + intros i p a Hd ->. apply asks_spec in Hd.
      assert (Hf : forallb (fun x => match snd x with Some _ => true | None => false end) (asks_of (proj 1 (fst run160a))) = true) by (by vm_compute).
      rewrite forallb_forall in Hf. apply elem_of_list_In in Hd. specialize (Hf _ Hd). discriminate Hf.
    + intros i s b r Hd _ _. apply sends_spec in Hd. apply arrives_moves.
      assert (Hf : forallb (fun m => bool_decide ((true, 1%nat, 2%nat, snd m) ∈ moves (fst run160a))) (sends_of (proj 1 (fst run160a))) = true) by (by vm_compute).
      rewrite forallb_forall in Hf. apply elem_of_list_In in Hd. specialize (Hf _ Hd). by apply bool_decide_eq_true in Hf.
  - apply delivered_ok. by vm_compute.
Qed.
