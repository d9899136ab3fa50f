(** Shared tables: C84. *)
From stdpp Require Import prelude.
From Verif Require Import Locks LocksProofs.

(** ** Specification *)
(** All threads have done all their operations. *)
Definition finished (p : list thread) : Prop := Forall (fun t => th_todo t = []) p.
(** Whatever was scheduled so far, all operations can still be completed. *)
Definition never_stuck (threads : list (list operation)) : Prop :=
  forall p, steps (init threads) p -> exists p', steps p p' /\ finished p'.
Definition C84_full : Prop := forall threads, never_stuck threads.

Definition start_page (o : operation) : bool := match o with Index => true | _ => false end.
Definition janitor (o : operation) : bool := match o with Janitor _ => true | _ => false end.
Definition module_transfer (o : operation) : bool := match o with EclaTransfer _ => true | _ => false end.
Definition module_packet (o : operation) : bool :=
  match o with EclaRefused _ _ | EclaRegistered _ | EclaBeacon _ | EclaBundle _ | EclaAnnounce _ => true | _ => false end.
Definition never (f : operation -> bool) (threads : list (list operation)) : Prop := forall os o, os ∈ threads -> o ∈ os -> f o = false.

(** Missing: the start page during a run of the janitor, and a transfer over an
    external layer during a packet of or to a module: see the refutations. *)
Theorem C84_no_deadlock_partial : forall threads,
  never start_page threads \/ never janitor threads ->
  never module_transfer threads \/ never module_packet threads -> never_stuck threads.
Proof.
  intros threads H1 H2 p Hs.
  assert (Hf : exists cf mf, Forall (Forall (suits cf mf)) threads).
  { exists (if decide (Forall (Forall (fun o => janitor o = false)) threads) then true else false),
      (if decide (Forall (Forall (fun o => module_transfer o = false)) threads) then true else false).
    apply Forall_forall. intros os Hos. apply Forall_forall. intros o Ho.
    assert (Hof : forall f, never f threads -> Forall (Forall (fun o => f o = false)) threads).
    { intros f Hn. apply Forall_forall. intros os' Hos'. apply Forall_forall. intros o' Ho'. by eapply Hn. }
    repeat case_decide; destruct o; cbn; try done; exfalso.
    all: first
      [ match goal with H : Forall (Forall _) _ |- _ => rewrite Forall_forall in H; specialize (H _ Hos); rewrite Forall_forall in H; by specialize (H _ Ho) end
      | match goal with H : ~ Forall (Forall _) _ |- _ => by destruct H1 as [H1|H1]; [specialize (H1 _ _ Hos Ho)|apply H, Hof] end
      | match goal with H : ~ Forall (Forall _) _ |- _ => by destruct H2 as [H2|H2]; [apply H, Hof|specialize (H2 _ _ Hos Ho)] end ]. }
  destruct Hf as (cf & mf & Hf). eapply finishes, steps_fine; [by apply suits_fine|done].
Qed.
Print Assumptions C84_no_deadlock_partial.

(** A stuck pool: unfinished, and no thread can go on *)
Lemma stuck_refutes threads p : steps (init threads) p -> (forall i, go i p = None) -> ~ finished p -> ~ never_stuck threads.
Proof.
  intros Hs Hn Hu H. destruct (H p Hs) as (p' & Hs' & Hf). apply Hu. clear Hs H.
  assert (p' = p) as ->; [|done]. clear Hf Hu. induction Hs' as [|p1 i p2 _ IH Hg]; [done|]. subst. by rewrite Hn in Hg.
Qed.
Fixpoint schedule (is : list nat) (p : list thread) : option (list thread) :=
  match is with [] => Some p | i :: is => p1 ← go i p; schedule is p1 end.
Lemma schedule_steps is p0 p p' : steps p0 p -> schedule is p = Some p' -> steps p0 p'.
Proof.
  revert p. induction is as [|i is IH]; intros p Hp H; cbn in H; [by injection H as <-|].
  apply bind_Some in H as (p1 & Hg & H). eapply IH; [|exact H]. by eapply steps_go.
Qed.
(** A browser opens the start page while the janitor looks through the peers. *)
Theorem C84_refuted : ~ never_stuck [[Index]; [Janitor 1]].
Proof.
  pose (sch := replicate 11 0 ++ [1]). destruct (schedule sch (init [[Index]; [Janitor 1]])) as [p|] eqn:E; [|done].
  apply (stuck_refutes _ p).
  - eapply schedule_steps; [constructor|exact E].
  - vm_compute in E. injection E as <-. intros [|[|i]]; reflexivity.
  - vm_compute in E. injection E as <-. intros H. apply Forall_cons in H as [H _]. done.
Qed.
Print Assumptions C84_refuted.
(** A bundle goes out over an external layer while its module is sent a beacon. *)
Theorem C84_modules_refuted : ~ never_stuck [[EclaTransfer [false]]; [EclaAnnounce [false]]].
Proof.
  pose (sch := [0; 1]). destruct (schedule sch (init [[EclaTransfer [false]]; [EclaAnnounce [false]]])) as [p|] eqn:E; [|done].
  apply (stuck_refutes _ p).
  - eapply schedule_steps; [constructor|exact E].
  - vm_compute in E. injection E as <-. intros [|[|i]]; reflexivity.
  - vm_compute in E. injection E as <-. intros H. apply Forall_cons in H as [H _]. done.
Qed.
Print Assumptions C84_modules_refuted.
Theorem C84_full_refuted : ~ C84_full.
Proof. intros H. by apply C84_refuted. Qed.
Print Assumptions C84_full_refuted.

(** A busy node meets the hypotheses. *)
Definition busy : list (list operation) :=
  [[Janitor 2; Single LStore]; [WsMessage 0 [WsCore; WsPop]; WsMessage 1 [WsConfig]]; [Deliver true; Deliver false];
   [ChoosePeers [1; 2]]; [Poll; CoreReport]; [EclaConnect true; EclaRegistered true; EclaBeacon true; EclaDisconnect true true]; [EclaAnnounce [true; false]]].
Example C84_busy : never_stuck busy.
Proof.
  apply C84_no_deadlock_partial.
  - left. intros os o Hos Ho. unfold busy in Hos. repeat (apply elem_of_cons in Hos as [-> | Hos]; [repeat (apply elem_of_cons in Ho as [-> | Ho]; [done|]); by apply elem_of_nil in Ho|]). by apply elem_of_nil in Hos.
  - left. intros os o Hos Ho. unfold busy in Hos. repeat (apply elem_of_cons in Hos as [-> | Hos]; [repeat (apply elem_of_cons in Ho as [-> | Ho]; [done|]); by apply elem_of_nil in Ho|]). by apply elem_of_nil in Hos.
Qed.
