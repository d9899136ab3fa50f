(** C144: a bundle for another node is given to the routing agent. *)
From stdpp Require Import prelude strings pretty gmap sorting.
From Coq Require Import NArith Lia ZifyBool ZifyN ZifyNat.
From Verif Require Import Core StoreMem Peers Routing Pipeline PipelineBase PipelineProofs PipelineInv PipelineRun TransferProofs Props_Transfer ReceptionProofs Props_Reception CauseProofs LocalProofs Props_Cause DeliverProofs Props_Deliver DispatchProofs JanitorProofs Restart Props_Janitor.
Open Scope N_scope.

(** ** Specification *)
Definition for_others (host : eid) (b : bundle) : Prop := eid_node_id (b_dst b) <> eid_node_id host.
(** the routing agent was asked for the next hops of the bundle by task [j] *)
Definition asks_agent (tr : list event) (j : nat) (id : string) : Prop :=
  exists p a, p_id p = id /\ does tr j (Route p) a.
(** task [i] started a task for the bundle, which asks the routing agent unless the
    store fails *)
Definition set_out (tr : list event) (m : machine) (i : nat) (id : string) : Prop :=
  exists p j, EStep i (LSpawn p) ∈ tr /\ p_id p = id /\ tasks tr !! j = Some (KForward p) /\
    (completed m j (KForward p) -> asks_agent tr j id \/ not_saved tr j id).

Section statements.
Context (host : eid) (gen_reports parallel : bool) (parse_record : list N -> option arecord)
        (lifetime_exceeded : N -> bundle -> bool).
Notation run := (run host gen_reports parallel parse_record lifetime_exceeded).
Notation meanwhile := (Props_Deliver.meanwhile host gen_reports parallel parse_record lifetime_exceeded).

Theorem C144_set_out_partial : forall tr m i b,
  run tr m -> finished m i -> for_others host b ->
  submitted tr i b \/
  (received tr i b /\ does tr i (SAdd b) (Some true) /\ ~ must_delete b /\ nothing_to_drop b) ->
  set_out tr m i (bid b) \/
  Props_Deliver.removed tr b \/
  store_failed tr i \/ (gen_reports = true /\ died tr i) \/
  (bf_admin (b_flags b) = true /\ meanwhile tr m i (fun m1 => registered m1 (b_dst b))) \/
  (submitted tr i b /\ b_src b <> DtnNone /\ meanwhile tr m i (fun m1 => ~ registered m1 (b_src b))).
Proof.
  intros tr m i b Hr Hf Hd Hk.
  assert (Hl : is_local_node_id host (b_dst b) = false) by (by apply bool_decide_eq_false).
  assert (Hacc : forall o r, does tr i o r -> exists t1 t2, tr = t1 ++ EStep i (LAct o r) :: t2 /\
            (exists m1, passes host gen_reports parallel parse_record lifetime_exceeded tr m t1 m1) /\
            (forall m1, passes host gen_reports parallel parse_record lifetime_exceeded tr m t1 m1 -> exists m2, access host lifetime_exceeded (m_node m1) o r m2) /\ run (t1 ++ EStep i (LAct o r) :: t2) m).
  { intros o r Hx. apply elem_of_list_split in Hx as (t1 & t2 & ->).
    exists t1, t2. split; [done|]. split; [by eapply run_passes|]. split; [|done].
    intros m1 H1. apply passes_access in H1 as (_ & m2 & H2). eauto. }
  assert (Hno : forall e, does tr i (HasEndpoint e) false -> meanwhile tr m i (fun m1 => ~ registered m1 e)).
  { intros e Hx. destruct (Hacc _ _ Hx) as (t1 & t2 & E & _ & H1 & _).
    exists t1, (LAct (HasEndpoint e) false), t2. split; [done|]. intros m1 Hm. destruct (H1 m1 Hm) as (m2 & Hh & _). by apply has_none. }
  assert (Hyes : forall e, does tr i (HasEndpoint e) true -> meanwhile tr m i (fun m1 => registered m1 e)).
  { intros e Hx. destruct (Hacc _ _ Hx) as (t1 & t2 & E & _ & H1 & _).
    exists t1, (LAct (HasEndpoint e) true), t2. split; [done|]. intros m1 Hm. destruct (H1 m1 Hm) as (m2 & Hh & _).
    symmetry in Hh. apply existsb_exists in Hh as (x & Hx1 & Hx2). apply bool_decide_eq_true in Hx2. exists x. split; [by apply elem_of_list_In|done]. }
  assert (Hpath : exists m0, boots host gen_reports parallel parse_record lifetime_exceeded m0 /\ path host gen_reports parallel parse_record lifetime_exceeded m0 tr m).
  { destruct (run_passes host gen_reports parallel parse_record lifetime_exceeded [] tr m Hr) as (m0 & rest & E & H0 & Hp).
    cbn in E. subst rest. exists m0. split; [|done]. inversion H0 as [? Hi E|t ? ? ? ? ? E]; [|by destruct t]. split; [by apply lives_new|]. by destruct Hi as (_ & ? & _). }
  assert (Hout : onward (bid b) (b_dst b) (bf_admin (b_flags b)) (did i tr) ->
    set_out tr m i (bid b) \/ Props_Deliver.removed tr b \/ store_failed tr i \/ (gen_reports = true /\ died tr i) \/
    (bf_admin (b_flags b) = true /\ meanwhile tr m i (fun m1 => registered m1 (b_dst b)))).
  { intros [[[p H]|[[b' H]|[H|[[Ha H]|(b' & st & rs & H)]]]]|(p & Hp & H)].
    - apply did_does in H. right. right. left. left. eauto.
    - apply did_does in H. right. right. left. right. eauto.
    - apply did_does in H. right. left. apply elem_of_list_split in H as (t1 & t2 & E). assert (Hr2 := Hr). rewrite E in Hr2.
      destruct (run_task_step _ _ _ _ _ _ _ _ _ _ Hr2) as (k & q & _ & Hk1 & _).
      destruct (gone_removed _ _ _ _ _ _ _ _ _ _ Hr2) as (j & r & Hin).
      + rewrite E in Hk. unfold received, submitted in Hk. rewrite tasks_app, (lookup_app_l_Some _ _ _ _ Hk1) in Hk.
        rewrite Hk1. destruct Hk as [Hk|[Hk _]]; auto.
      + exists j, r. rewrite E. apply elem_of_app. by left.
    - apply did_does in H. do 4 right. split; [done|by apply Hyes].
    - apply did_does in H. do 3 right. left. destruct (Hacc _ _ H) as (t1 & t2 & E & [m1 Hm] & H1 & Hr2). destruct (H1 m1 Hm) as (m2 & _ & Hh).
      destruct (run_cause _ _ _ _ _ _ _ _ _ _ Hr2) as (k & _ & Hg & _). split; [done|]. exists b', st, rs. done.
    - left. apply did_elem in H. assert (Hj : KForward p ∈ tasks tr).
      { unfold tasks. rewrite elem_of_list_In, in_flat_map. exists (EStep i (LSpawn p)). split; [by apply elem_of_list_In|by left]. }
      apply elem_of_list_lookup in Hj as [j Hj]. exists p, j. split; [done|]. split; [done|]. split; [done|].
      intros Hc. destruct Hpath as (m0 & H0 & Hp0). destruct (C141_started_task_asks _ _ _ _ _ _ _ _ _ _ H0 Hp0 Hc) as [(q & a & Hq & Ha)|Hns].
      + left. exists q, a. split; [congruence|done].
      + right. by rewrite <- Hp. }
  assert (HQ : forall k p, m_tasks m !! i = Some (k, p) -> Q_onward host k (did i tr)).
  { intros k p Hp. eapply (run_ended _ _ _ _ _ (fun _ _ _ => True) (Q_onward host)); [|done|done|].
    - intros k0. apply all_onward.
    - intros l q. by apply (Hf _ _ Hp). }
  assert (Ht : forall k, tasks tr !! i = Some k -> Q_onward host k (did i tr)).
  { intros k Hi. rewrite <- (run_tasks _ _ _ _ _ _ _ Hr), list_lookup_fmap in Hi.
    destruct (m_tasks m !! i) as [[k' p]|] eqn:E; [|done]. injection Hi as ->. by eapply HQ. }
  destruct Hk as [Hk|(Hk & Hadd & Hdel & Hn)].
  - destruct (Ht _ Hk Hl) as [Ho|[Hs He]].
    + apply Hout in Ho. tauto.
    + do 5 right. split; [done|]. split; [done|]. by apply Hno, did_does.
  - assert (Ho : onward (bid b) (b_dst b) (bf_admin (b_flags b)) (did i tr)).
    { apply (Ht _ Hk); [done|done| |by apply did_does].
      apply marks_none. apply Forall_forall. intros x Hx [Hx1 Hx2]. rewrite (Hn x Hx Hx1) in Hx2. done. }
    apply Hout in Ho. tauto.
Qed.
End statements.
Print Assumptions C144_set_out_partial.

(** The same for all bundles that need not be deleted, and with no way for a task
    to die. *)
Definition C144_full : Prop :=
  forall host gen_reports parallel parse_record lifetime_exceeded tr m i b,
    run host gen_reports parallel parse_record lifetime_exceeded tr m -> finished m i -> for_others host b ->
    received tr i b -> does tr i (SAdd b) (Some true) -> ~ must_delete b ->
    set_out tr m i (bid b) \/ Props_Deliver.removed tr b \/ store_failed tr i.
(** three unknown blocks to be dropped and the payload: the task panics *)
Definition brittle := Bundle (asks false false false false) (Dtn "n2" "in") (Dtn "n8" "in") DtnNone 1000 0 5000 0 0
  [Block 192 4 drop_me (CData [9]); Block 193 3 drop_me (CData [9]); Block 194 2 drop_me (CData [9]); Block 1 1 no_kflags (CData [1])].
Definition run144 := go false (fun _ => None) (fate None true) [DoStart (KReceive brittle); DoRun 0] (start_node [] 2000000 1000000).
Theorem C144_full_refuted : ~ C144_full.
Proof.
  intros H. specialize (H _ _ _ _ _ _ _ 0%nat brittle (go_ok _ _ _ _ _ _ _ : run _ _ _ _ _ (fst run144) (snd run144))).
  destruct H as [H|[H|H]].
  - intros k p E. vm_compute in E. injection E as <- <-. intros l q Hs. inversion Hs.
  - by vm_compute.
  - by vm_compute.
  - apply elem_of_list_In. vm_compute. auto 10.
  - unfold must_delete. intros (x & Hx & Hy). repeat (apply elem_of_cons in Hx as [-> |Hx]; [by destruct Hy|]). by apply elem_of_nil in Hx.
  - destruct H as (p & j & Hd & _). by apply (never_ev (fun e => match e with EStep _ (LSpawn _) => true | _ => false end)) in Hd; [|vm_compute].
  - destruct H as (j & r & Hd). by apply (never_ev (fun e => match e with EStep _ (LAct (SRemove _) _) => true | _ => false end)) in Hd; [|vm_compute].
  - destruct H as [[p Hd]|[b Hd]].
    + by apply (never_ev (fun e => match e with EStep _ (LAct (SUpdate _) false) => true | _ => false end)) in Hd; [|vm_compute].
    + by apply (never_ev (fun e => match e with EStep _ (LAct (SPush _) false) => true | _ => false end)) in Hd; [|vm_compute].
Qed.
Print Assumptions C144_full_refuted.

(** one received, one submitted; the started tasks ask the agent *)
Definition foreign := Bundle (asks false false false false) (Dtn "n2" "in") (Dtn "n8" "in") DtnNone 1000 0 5000 0 0
  [Block 192 2 no_kflags (CData [9]); Block 1 1 no_kflags (CData [1])].
Definition run144r := go false (fun _ => None) (fate (Some ([hop2], false)) true) [DoStart (KReceive foreign); DoRun 0; DoRun 1] (start_node [] 2000000 2000).
Definition run144s := go false (fun _ => None) (fate (Some ([hop2], false)) true) [DoStart (KSubmit young); DoRun 0; DoRun 1] (start_node [Dtn "n1" "app"] 2000000 2000).
Example C144_case :
  received (fst run144r) 0 foreign /\ does (fst run144r) 0 (SAdd foreign) (Some true) /\ ~ must_delete foreign /\ nothing_to_drop foreign /\
  for_others node1 foreign /\ omap asked_for (fst run144r) = [bid foreign] /\
  submitted (fst run144s) 0 young /\ for_others node1 young /\ omap asked_for (fst run144s) = [bid young].
Proof.
  split; [by vm_compute|]. split; [apply elem_of_list_In; vm_compute; auto 10|]. split; [|split; [|by vm_compute]].
  - unfold must_delete. intros (x & Hx & Hy). repeat (apply elem_of_cons in Hx as [-> |Hx]; [by destruct Hy|]). by apply elem_of_nil in Hx.
  - intros x Hx. repeat (apply elem_of_cons in Hx as [-> |Hx]; [done|]). by apply elem_of_nil in Hx.
Qed.
