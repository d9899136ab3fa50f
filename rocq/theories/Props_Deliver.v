(** C102: a bundle for an application that is registered gets to it. *)
From stdpp Require Import prelude strings pretty gmap sorting.
From Coq Require Import NArith Lia ZifyBool ZifyN ZifyNat.
From Verif Require Import Core StoreMem Peers Routing Pipeline PipelineBase PipelineProofs PipelineInv PipelineRun TransferProofs Props_Transfer ReceptionProofs Props_Reception CauseProofs LocalProofs Props_Cause DeliverProofs.
Open Scope N_scope.

(** ** Specification *)
(** no block of an unknown type asks to be removed *)
Definition nothing_to_drop (b : bundle) : Prop :=
  forall x, x ∈ b_blocks b -> 11 <= k_type x -> kf_remove (k_flags x) = false.
(** the bundle was handed to the application: put into its queue, or given to
    its subscriber *)
Definition handed_over (tr : list event) (i : nat) (e : eid) : Prop :=
  exists b r, does tr i (Deliver e b) r /\ (r = Queued \/ r = Handed).
Section statements.
Context (host : eid) (gen_reports parallel : bool) (parse_record : list N -> option arecord)
        (lifetime_exceeded : N -> bundle -> bool).
Notation run := (run host gen_reports parallel parse_record lifetime_exceeded).
Notation passes := (passes host gen_reports parallel parse_record lifetime_exceeded).
(** at one of the steps of task [i] the node was in such a state *)
Definition meanwhile (tr : list event) (m : machine) (i : nat) (P : machine -> Prop) : Prop :=
  exists t1 l t2, tr = t1 ++ EStep i l :: t2 /\ forall m1, passes tr m t1 m1 -> P m1.
Definition store_failed (tr : list event) (i : nat) : Prop :=
  (exists p, does tr i (SUpdate p) false) \/ (exists b, does tr i (SPush b) false).
(** somebody removed the bundle *)
Definition removed (tr : list event) (b : bundle) : Prop := exists j r, does tr j (SRemove (bid b)) r.
(** the task died making a status report, as there is no endpoint to send it to *)
Definition died (tr : list event) (i : nat) : Prop :=
  exists b st rs, does tr i (NewReport b st rs) None /\ b_rpt b = DtnNone.

Lemma find_none e n : find_ep e n = None -> ~ exists x, x ∈ n_eps n /\ ep_eid x = e.
Proof.
  unfold find_ep. intros H (x & Hx & E). eapply List.find_none in H; [|by apply elem_of_list_In].
  apply bool_decide_eq_false in H. by rewrite E in H.
Qed.
Lemma has_none e n : has_endpoint e n = false -> ~ exists x, x ∈ n_eps n /\ ep_eid x = e.
Proof.
  unfold has_endpoint. intros H (x & Hx & E). assert (Ht : existsb (fun x => bool_decide (e = ep_eid x)) (n_eps n) = true); [|congruence].
  apply existsb_exists. exists x. split; [by apply elem_of_list_In|]. by apply bool_decide_eq_true.
Qed.

(** ** C102 *)
Theorem C102_handed_over_partial : forall tr m i b,
  run tr m -> finished m i -> bf_admin (b_flags b) = false ->
  submitted tr i b \/
  (received tr i b /\ does tr i (SAdd b) (Some true) /\ ~ must_delete b /\ nothing_to_drop b) ->
  handed_over tr i (b_dst b) \/
  meanwhile tr m i (fun m1 => ~ registered m1 (b_dst b)) \/
  removed tr b \/
  store_failed tr i \/ (gen_reports = true /\ died tr i) \/
  (submitted tr i b /\ b_src b <> DtnNone /\ meanwhile tr m i (fun m1 => ~ registered m1 (b_src b))).
Proof.
  intros tr m i b Hr Hf Ha Hk.
  assert (Hacc : forall o r, does tr i o r -> exists t1 t2, tr = t1 ++ EStep i (LAct o r) :: t2 /\
            (exists m1, passes tr m t1 m1) /\
            (forall m1, passes tr m t1 m1 -> exists m2, access host lifetime_exceeded (m_node m1) o r m2) /\ run (t1 ++ EStep i (LAct o r) :: t2) m).
  { intros o r Hd. apply elem_of_list_split in Hd as (t1 & t2 & ->).
    exists t1, t2. split; [done|]. split; [by eapply run_passes|]. split; [|done].
    intros m1 H1. apply passes_access in H1 as (_ & m2 & H2). eauto. }
  assert (Hno : forall e, does tr i (HasEndpoint e) false -> meanwhile tr m i (fun m1 => ~ registered m1 e)).
  { intros e Hd. destruct (Hacc _ _ Hd) as (t1 & t2 & E & _ & H1 & _).
    exists t1, (LAct (HasEndpoint e) false), t2. split; [done|]. intros m1 Hm. destruct (H1 m1 Hm) as (m2 & Hh & _). by apply has_none. }
  assert (Hout : outcome (bid b) (b_dst b) (did i tr) ->
    handed_over tr i (b_dst b) \/ meanwhile tr m i (fun m1 => ~ registered m1 (b_dst b)) \/
    removed tr b \/ store_failed tr i \/ (gen_reports = true /\ died tr i)).
  { intros [[[p H]|[[b' H]|[H|[H|(b' & st & rs & H)]]]]|(b' & r & H)]; apply did_does in H.
    - do 3 right. left. left. eauto.
    - do 3 right. left. right. eauto.
    - right. right. left. apply elem_of_list_split in H as (t1 & t2 & E). assert (Hr2 := Hr). rewrite E in Hr2.
      destruct (run_task_step _ _ _ _ _ _ _ _ _ _ Hr2) as (k & q & _ & Hk1 & _).
      destruct (gone_removed _ _ _ _ _ _ _ _ _ _ Hr2) as (j & r & Hin).
      + rewrite E in Hk. unfold received, submitted in Hk. rewrite tasks_app, (lookup_app_l_Some _ _ _ _ Hk1) in Hk.
        rewrite Hk1. destruct Hk as [Hk|[Hk _]]; auto.
      + exists j, r. rewrite E. apply elem_of_app. by left.
    - right. left. by apply Hno.
    - do 4 right. destruct (Hacc _ _ H) as (t1 & t2 & E & [m1 Hm] & H1 & Hr2). destruct (H1 m1 Hm) as (m2 & _ & Hh).
      destruct (run_cause _ _ _ _ _ _ _ _ _ _ Hr2) as (k & _ & Hg & _). split; [done|]. exists b', st, rs. done.
    - destruct (Hacc _ _ H) as (t1 & t2 & E & _ & H1 & _).
      assert (Hor : (r = Queued \/ r = Handed) \/ (r <> Queued /\ r <> Handed)) by (destruct r; auto).
      destruct Hor as [Hor|[Hq Hh]].
      + left. by exists b', r.
      + right. left. exists t1, (LAct (Deliver (b_dst b) b') r), t2. split; [done|]. intros m1 Hm.
        destruct (H1 m1 Hm) as (m2 & Ha2). cbn in Ha2. apply find_none.
        destruct (find_ep (b_dst b) (m_node m1)) as [x|] eqn:Ef; [|done].
        destruct Ha2 as [[-> _]|[-> _]]; done. }
  assert (HQ : forall k p, m_tasks m !! i = Some (k, p) -> Q_outcome k (did i tr)).
  { intros k p Hp. eapply (run_ended _ _ _ _ _ (fun _ _ _ => True) Q_outcome); [|done|done|].
    - intros k0. apply all_outcome.
    - intros l q. by apply (Hf _ _ Hp). }
  assert (Ht : forall k, tasks tr !! i = Some k -> Q_outcome k (did i tr)).
  { intros k Hi. rewrite <- (run_tasks _ _ _ _ _ _ _ Hr), list_lookup_fmap in Hi.
    destruct (m_tasks m !! i) as [[k' p]|] eqn:E; [|done]. injection Hi as ->. by eapply HQ. }
  destruct Hk as [Hk|(Hk & Hadd & Hd & Hn)].
  - destruct (Ht _ Hk Ha) as [Ho|[Hs He]].
    + apply Hout in Ho. tauto.
    + do 5 right. split; [done|]. split; [done|]. by apply Hno, did_does.
  - assert (Ho : outcome (bid b) (b_dst b) (did i tr)).
    { apply (Ht _ Hk); [|by apply did_does]. split; [done|]. split; [done|].
      apply marks_none. apply Forall_forall. intros x Hx [Hx1 Hx2]. rewrite (Hn x Hx Hx1) in Hx2. done. }
    apply Hout in Ho. tauto.
Qed.
End statements.
Print Assumptions C102_handed_over_partial.

(** The same for all bundles that need not be deleted, and with no way for a task
    to die. *)
Definition C102_full : Prop :=
  forall host gen_reports parallel parse_record lifetime_exceeded tr m i b,
    run host gen_reports parallel parse_record lifetime_exceeded tr m -> finished m i -> bf_admin (b_flags b) = false ->
    received tr i b -> does tr i (SAdd b) (Some true) -> ~ must_delete b ->
    handed_over tr i (b_dst b) \/
    meanwhile host gen_reports parallel parse_record lifetime_exceeded tr m i (fun m1 => ~ registered m1 (b_dst b)) \/
    removed tr b \/ store_failed tr i.

(** three unknown blocks to be dropped and the payload: the task panics *)
Definition fragile := Bundle (asks false false false false) (Dtn "n1" "in") (Dtn "n8" "in") DtnNone 1000 0 5000 0 0
  [Block 192 4 drop_me (CData [9]); Block 193 3 drop_me (CData [9]); Block 194 2 drop_me (CData [9]); Block 1 1 no_kflags (CData [1])].
Definition run102 := go false (fun _ => None) (fate None true) [DoStart (KReceive fragile); DoRun 0] (start_node [Dtn "n1" "in"] 2000000 1000000).
(** the endpoints of a node change only by registering and unregistering *)
Definition changes_eps (e : event) : bool :=
  match e with ERegister _ | EUnregister _ | ESubscribe _ _ | EStep _ (LAct (Deliver _ _) _) | EStep _ (LAct (Pop _) _) => true | _ => false end.
Lemma same_eps host g p parse life m e m' : mstep host g p parse life m e m' -> changes_eps e = false -> n_eps (m_node m') = n_eps (m_node m).
Proof.
  intros Hs He. inversion Hs as [| | | | | |m0 i k q o r p' n' _ _ Ha E1 E2 E3| |]; subst; try done. cbn [m_node].
  destruct o; try done; cbn in Ha;
    try (by destruct Ha as [_ ->]); try (by rewrite Ha); try (by destruct Ha as [-> _]);
    try (by destruct Ha as [[_ ->]|[_ ->]]); try (by destruct Ha as [[_ ->]|(_ & _ & ->)]).
  { by destruct Ha as [[_ ->]|[[_ ->]|(_ & _ & ->)]]. }
  by destruct (n_peers _ !! _); destruct Ha as [_ ->].
Qed.
Lemma path_eps host g p parse life m es m' : path host g p parse life m es m' -> forallb (fun e => negb (changes_eps e)) es = true ->
  n_eps (m_node m') = n_eps (m_node m).
Proof.
  induction 1 as [|m e m1 es m' Hs _ IH]; intros Hf; [done|]. cbn in Hf. apply andb_true_iff in Hf as [He Hf].
  rewrite (IH Hf). eapply same_eps; [done|]. by apply negb_true_iff.
Qed.
Lemma never_pass (f : event -> bool) t1 t2 : forallb (fun e => negb (f e)) (t1 ++ t2) = true -> forallb (fun e => negb (f e)) t2 = true.
Proof. rewrite forallb_app. by intros [_ H]%andb_true_iff. Qed.
Theorem C102_full_refuted : ~ C102_full.
Proof.
  intros H. specialize (H _ _ _ _ _ _ _ 0%nat fragile (go_ok _ _ _ _ _ _ _ : run _ _ _ _ _ (fst run102) (snd run102))).
  assert (Hc : forallb (fun e => negb (changes_eps e)) (fst run102) = true) by by vm_compute.
  destruct H as [H|[H|[H|H]]].
  - intros k p E. vm_compute in E. injection E as <- <-. intros l q Hs. inversion Hs.
  - done.
  - vm_compute. done.
  - apply elem_of_list_In. vm_compute. auto 10.
  - unfold must_delete. intros (x & Hx & Hy). repeat (apply elem_of_cons in Hx as [-> |Hx]; [by destruct Hy|]). by apply elem_of_nil in Hx.
  - destruct H as (b & r & Hd & _). by apply (never_ev changes_eps) in Hd.
  - destruct H as (t1 & l & t2 & E & H).
    destruct (run_passes node1 false false (fun _ => None) (fun _ _ => false) t1 (EStep 0 l :: t2) (snd run102)) as [m1 Hm].
    { rewrite <- E. apply go_ok. }
    rewrite <- E in Hm. apply (H m1 Hm). destruct Hm as (rest & E' & _ & Hp). rewrite E' in Hc. apply never_pass in Hc.
    apply path_eps in Hp; [|done]. clear - Hp. exists (Endpoint (Dtn "n1" "in") [] false). rewrite <- Hp. vm_compute. split; [left|done].
  - destruct H as (j & r & Hd). by apply (never_ev (fun e => match e with EStep _ (LAct (SRemove _) _) => true | _ => false end)) in Hd; [|vm_compute].
  - destruct H as [[p Hd]|[b Hd]].
    + by apply (never_ev (fun e => match e with EStep _ (LAct (SUpdate _) false) => true | _ => false end)) in Hd; [|vm_compute].
    + by apply (never_ev (fun e => match e with EStep _ (LAct (SPush _) false) => true | _ => false end)) in Hd; [|vm_compute].
Qed.
Print Assumptions C102_full_refuted.

(** a bundle for a registered application, received; and one submitted by a
    registered application: both end up in the queue *)
Definition welcome := Bundle (asks false false false false) (Dtn "n1" "in") (Dtn "n8" "in") DtnNone 1000 0 5000 0 0
  [Block 192 2 no_kflags (CData [9]); Block 1 1 no_kflags (CData [1])].
Definition run102r := go false (fun _ => None) (fate None true) [DoStart (KReceive welcome); DoRun 0] (start_node [Dtn "n1" "in"] 2000000 1000000).
Definition own := Bundle (asks false false false false) (Dtn "n1" "in") (Dtn "n1" "out") DtnNone 1000 0 5000 0 0
  [Block 1 1 no_kflags (CData [1])].
Definition run102s := go false (fun _ => None) (fate None true) [DoStart (KSubmit own); DoRun 0]
  (start_node [Dtn "n1" "out"; Dtn "n1" "in"] 2000000 1000000).
Definition queued (e : event) : bool := match e with EStep 0 (LAct (Deliver _ _) Queued) => true | _ => false end.
Example C102_case : does (fst run102r) 0 (SAdd welcome) (Some true) /\ existsb queued (fst run102r) = true /\
  existsb queued (fst run102s) = true.
Proof. split; [|by vm_compute]. apply elem_of_list_In. vm_compute. auto 10. Qed.
Example C102_case_hyps : received (fst run102r) 0 welcome /\ ~ must_delete welcome /\ nothing_to_drop welcome /\
  submitted (fst run102s) 0 own.
Proof.
  split; [by vm_compute|]. split; [|split; [|by vm_compute]].
  - unfold must_delete. intros (x & Hx & Hy). repeat (apply elem_of_cons in Hx as [-> |Hx]; [by destruct Hy|]). by apply elem_of_nil in Hx.
  - intros x Hx. repeat (apply elem_of_cons in Hx as [-> |Hx]; [done|]). by apply elem_of_nil in Hx.
Qed.
