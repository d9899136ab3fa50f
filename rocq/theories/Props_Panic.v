(** C153: the periodic reprocessing of the stored bundles does not die. *)
From stdpp Require Import prelude strings pretty gmap sorting.
From Coq Require Import NArith Lia.
From Verif Require Import Core StoreMem StoreSled Peers Routing Pipeline PipelineBase PipelineProofs PipelineInv PipelineRun Restart NodeDisk
  PanicProofs Props_Cause Props_NodeDisk.
Open Scope N_scope.

(** ** Specification *)
(** A panic in a round of the janitor ends the timer that starts the rounds
    (dtnd/cron.rs:5-17, dtnd/janitor.rs:20-25). *)
Definition janitor_died (m : machine) (i : nat) : Prop := m_tasks m !! i = Some (KJanitor, Panic).
(** A bundle as it comes out of the decoder, that has an endpoint for its status
    reports in case such reports are made. *)
Definition harmless (gen_reports : bool) (b : bundle) : Prop :=
  (forall k, block_by_type PREVIOUS_NODE_BLOCK b = Some k -> exists e, k_data k = CPrev e) /\
  (gen_reports = true -> b_rpt b <> DtnNone).
Definition C153_full : Prop := forall host gen_reports parallel parse_record lifetime_exceeded tr m i,
  run host gen_reports parallel parse_record lifetime_exceeded tr m -> ~ janitor_died m i.
Definition C153_disk_full : Prop := forall host gen_reports parallel parse_record lifetime_exceeded tr y i,
  drun host gen_reports parallel parse_record lifetime_exceeded tr y ->
  (forall j id b, does tr j (SGet id) (Some b) -> harmless gen_reports b) -> ~ janitor_died y.2 i.

Section statements.
Context (host : eid) (gen_reports parallel : bool) (parse_record : list N -> option arecord)
        (lifetime_exceeded : N -> bundle -> bool).
Notation run := (run host gen_reports parallel parse_record lifetime_exceeded).
Notation drun := (drun host gen_reports parallel parse_record lifetime_exceeded).
(** It survives if it processes the bundles in tasks of their own, and otherwise
    if the bundles it forwards are harmless ... *)
Theorem C153_janitor_survives_partial : forall tr m i, run tr m ->
  (parallel = false -> forall id b, does tr i (SGet id) (Some b) -> harmless gen_reports b) ->
  ~ janitor_died m i.
Proof. intros tr m i Hr Hf Hd. exact (janitor_alive _ _ _ _ _ _ _ _ _ _ Hr Hf Hd eq_refl). Qed.
(** ... and, with the store on disk, if none of them is taken away meanwhile. *)
Theorem C153_janitor_survives_disk_partial : forall tr y i, drun tr y ->
  (parallel = false -> forall id b, does tr i (SGet id) (Some b) -> harmless gen_reports b) ->
  (parallel = false -> forall id, ~ does tr i (SGet id) None) ->
  ~ janitor_died y.2 i.
Proof. intros tr y i Hr Hf Hn Hd. exact (janitor_alive_disk _ _ _ _ _ _ _ _ _ _ Hr Hf Hn Hd eq_refl). Qed.
End statements.
Print Assumptions C153_janitor_survives_partial.
Print Assumptions C153_janitor_survives_disk_partial.

(** ** Examples *)
(** A bundle in transit wants its forwarding reported, to nobody.  Once it was
    sent by the janitor, the janitor is gone. *)
Definition nobody := Bundle (asks false true false false) (Dtn "n8" "in") (Dtn "n9" "x") DtnNone 1000 0 5000 0 0
  [Block 1 1 no_kflags (CData [1])].
Definition run153 := go true (fun _ => None) (fate (Some ([hop2], false)) true)
  [DoStart (KReceive nobody); DoRun 0; DoSteps 1 1; DoStart KJanitor; DoRun 2] (start_node [] 2000000 2000).
Theorem C153_full_refuted : ~ C153_full.
Proof.
  intros H. apply (H _ _ _ _ _ _ _ 2%nat (go_ok true (fun _ => None) (fate (Some ([hop2], false)) true)
    [DoStart (KReceive nobody); DoRun 0; DoSteps 1 1; DoStart KJanitor; DoRun 2] [] 2000000 2000)). by vm_compute.
Qed.
Print Assumptions C153_full_refuted.
(** The user deletes a bundle between the moment the janitor reads its metadata
    and the moment it asks for the bundle. *)
Definition disk153 := on_disk (fate (Some ([hop2], false)) true)
  [DoStart (KReceive transit); DoRun 0; DoSteps 1 1; DoStart KJanitor; DoSteps 2 5; DoStart (KDelete (bid transit)); DoRun 3; DoRun 2] (fresh_disk []).
Theorem C153_disk_full_refuted : ~ C153_disk_full.
Proof.
  intros H. apply (H _ _ _ _ _ _ _ 2%nat (on_disk_run _ _ _ : drun node1 false false (fun _ => None) (fun _ _ => false) (fst disk153) (snd disk153))).
  - intros j id b Hd. split; [|done]. intros k Hk. exfalso. revert Hk.
    assert (Hall : forallb (fun e => match e with EStep _ (LAct (SGet _) (Some b)) => match block_by_type PREVIOUS_NODE_BLOCK b with None => true | _ => false end | _ => true end) (fst disk153) = true) by by vm_compute.
    rewrite forallb_forall in Hall. unfold does in Hd. apply elem_of_list_In in Hd. specialize (Hall _ Hd). cbn in Hall. by destruct (block_by_type _ b).
  - by vm_compute.
Qed.
Print Assumptions C153_disk_full_refuted.
(** A round that forwards a harmless bundle and ends. *)
Definition calm153 := on_disk (fate (Some ([hop2], false)) true)
  [DoStart (KReceive transit); DoRun 0; DoSteps 1 1; DoStart KJanitor; DoRun 2] (fresh_disk []).
Example C153_case :
  m_tasks (snd calm153).2 !! 2%nat = Some (KJanitor, Ret tt) /\ existsb sent_to (fst calm153) = true /\
  (forall id, ~ does (fst calm153) 2 (SGet id) None) /\
  (forall id b, does (fst calm153) 2 (SGet id) (Some b) -> harmless false b).
Proof.
  split; [by vm_compute|]. split; [by vm_compute|]. split.
  - intros id Hd. by apply (never_ev (fun e => match e with EStep _ (LAct (SGet _) None) => true | _ => false end)) in Hd; [|vm_compute].
  - intros id b Hd. split; [|done]. intros k Hk. exfalso. revert Hk.
    assert (Hall : forallb (fun e => match e with EStep _ (LAct (SGet _) (Some b)) => match block_by_type PREVIOUS_NODE_BLOCK b with None => true | _ => false end | _ => true end) (fst calm153) = true) by by vm_compute.
    rewrite forallb_forall in Hall. unfold does in Hd. apply elem_of_list_In in Hd. specialize (Hall _ Hd). cbn in Hall. by destruct (block_by_type _ b).
Qed.
