(** C151: a node with the store on disk does nothing a node with the store in
    memory could not do.
    C152: on disk a bundle is taken in once, in all lives of the node. *)
From stdpp Require Import prelude strings pretty gmap sorting.
From Coq Require Import NArith Lia.
From Verif Require Import Core StoreMem StoreSled Peers Routing Pipeline PipelineBase PipelineProofs PipelineInv PipelineRun Restart NodeDisk
  ReceptionProofs Props_Reception Props_Cause.
Open Scope N_scope.

(** ** Specification *)
(** both stores give the same bundles and the same metadata *)
Definition same_contents (d : disk) (s : mem) : Prop :=
  forall id, sled_get id d = mem_get id s /\ sled_meta_of id d = mem_meta_of id s.
(** the rest of the two nodes is the same; each task is as far as its
    counterpart, or has died *)
Definition same_node (x m : machine) : Prop :=
  n_eps (m_node x) = n_eps (m_node m) /\ n_peers (m_node x) = n_peers (m_node m) /\
  n_stats (m_node x) = n_stats (m_node m) /\ n_time (m_node x) = n_time (m_node m) /\ n_dtn (m_node x) = n_dtn (m_node m) /\
  length (m_tasks x) = length (m_tasks m) /\
  forall i k p, m_tasks x !! i = Some (k, p) -> exists q, m_tasks m !! i = Some (k, q) /\ (p = q \/ p = Panic).
Lemma like_same y m : like y m -> same_contents y.1 (n_store (m_node m)) /\ same_node y.2 m.
Proof.
  intros [En Ht]. split; [rewrite En; done|]. unfold same_node. rewrite En. cbn. repeat split; [by eapply Forall2_length|].
  intros i k p Hi. destruct (Forall2_lookup_l _ _ _ _ _ Ht Hi) as ([k' q] & Hq & [E1 E2]). cbn in *. subst k'. eauto.
Qed.

Section statements.
Context (host : eid) (gen_reports parallel : bool) (parse_record : list N -> option arecord)
        (lifetime_exceeded : N -> bundle -> bool).
Notation run := (run host gen_reports parallel parse_record lifetime_exceeded).
Notation path := (path host gen_reports parallel parse_record lifetime_exceeded).
Notation lives := (lives host gen_reports parallel parse_record lifetime_exceeded).
Notation drun := (drun host gen_reports parallel parse_record lifetime_exceeded).
Notation dpath := (dpath host gen_reports parallel parse_record lifetime_exceeded).
Notation dlives := (dlives host gen_reports parallel parse_record lifetime_exceeded).

(** ** C151 *)
(** Event for event, an execution on disk is one in memory. *)
Theorem C151_one_life : forall tr y, drun tr y ->
  exists m, run tr m /\ same_contents y.1 (n_store (m_node m)) /\ same_node y.2 m.
Proof. intros tr y H. destruct (drun_like _ _ _ _ _ _ _ H) as (m & Hr & Hl). exists m. split; [done|by apply like_same]. Qed.
(** So is what follows any number of crashes and restarts. *)
Theorem C151_after_restarts : forall h y tr y', dlives h y -> dpath y tr y' ->
  exists m m', lives m /\ same_contents y.1 (n_store (m_node m)) /\ same_node y.2 m /\
    path m tr m' /\ same_contents y'.1 (n_store (m_node m')) /\ same_node y'.2 m'.
Proof.
  intros h y tr y' H Hp. destruct (dlives_like _ _ _ _ _ _ _ H) as (m & Hr & Hl).
  destruct (dpath_like _ _ _ _ _ _ _ _ _ Hp Hl (lives_keys _ _ _ _ _ _ Hr)) as (m' & Hp' & Hl').
  exists m, m'. split; [done|]. destruct (like_same _ _ Hl). destruct (like_same _ _ Hl'). auto.
Qed.
(** What is true of everything the node does on the store in memory is true of
    everything it does on the store on disk. *)
Theorem C151_same_guarantees : forall P : list event -> Prop,
  (forall tr m, run tr m -> P tr) -> forall tr y, drun tr y -> P tr.
Proof. intros P H tr y Hr. destruct (C151_one_life _ _ Hr) as (m & Hm & _). by eapply H. Qed.

(** ** C152 *)
(** What was taken in once, from a neighbour or from an application, is not
    taken in from a neighbour again: not after its delivery, its transmission or
    its deletion, and not after a restart. *)
Theorem C152_never_again : forall h1 e1 h2 j b' h3 y b,
  dlives (h1 ++ Ev e1 :: h2 ++ Ev (EStep j (LAct (SAdd b') (Some true))) :: h3) y ->
  (exists i, e1 = EStep i (LAct (SAdd b) (Some true)) \/ e1 = EStep i (LAct (SPush b) true)) ->
  bid b <> bid b'.
Proof.
  intros h1 e1 h2 j b' h3 y b H He Eb.
  replace (h1 ++ Ev e1 :: h2 ++ Ev (EStep j (LAct (SAdd b') (Some true))) :: h3)
    with (((h1 ++ Ev e1 :: h2) ++ [Ev (EStep j (LAct (SAdd b') (Some true)))]) ++ h3) in H by (by rewrite <- !app_assoc).
  apply dlives_prefix in H as [y1 H]. apply dlives_last in H as (y0 & H0 & Hs).
  apply accept_fresh in Hs. destruct (dlives_meta _ _ _ _ _ _ _ b e1 H0) as [q Hq].
  - apply elem_of_app. right. left.
  - exact He.
  - rewrite Eb in Hq. congruence.
Qed.
(** So only one of several receptions of a bundle is counted and processed. *)
Theorem C152_processed_once : forall tr y i j b b', drun tr y ->
  reception tr i b -> reception tr j b' -> bid b = bid b' ->
  counted_incoming tr i -> counted_incoming tr j -> i = j.
Proof.
  intros tr y i j b b' Hr Hi Hj Eb Ci Cj. destruct (decide (i = j)) as [?|Hne]; [done|]. exfalso.
  destruct (C151_one_life _ _ Hr) as (m & Hm & _).
  destruct (C32_processed_once _ _ _ _ _ _ _ _ _ _ _ Hm Hi Hj Hne Eb Ci Cj) as (t1 & e1 & t2 & e2 & t3 & -> & _ & [[-> ->]|[-> ->]]).
  - apply drun_dlives in Hr. rewrite map_app in Hr. cbn [map] in Hr. rewrite map_app in Hr. cbn [map] in Hr.
    apply (C152_never_again _ _ _ _ _ _ _ b Hr); [exists i; by left|done].
  - apply drun_dlives in Hr. rewrite map_app in Hr. cbn [map] in Hr. rewrite map_app in Hr. cbn [map] in Hr.
    apply (C152_never_again _ _ _ _ _ _ _ b' Hr); [exists j; by left|done].
Qed.
End statements.
Print Assumptions C151_one_life.
Print Assumptions C151_after_restarts.
Print Assumptions C151_same_guarantees.
Print Assumptions C152_never_again.
Print Assumptions C152_processed_once.

(** ** Examples *)
Definition on_disk (o : oracle) (l : list instr) (y : disk * machine) := dscript node1 false false (fun _ => None) (fun _ _ => false) o l y.
Definition fresh_disk (eps : list eid) : disk * machine := (disk0, start_node eps 2000000 2000).
Lemma on_disk_run o l eps : drun node1 false false (fun _ => None) (fun _ _ => false)
  (fst (on_disk o l (fresh_disk eps))) (snd (on_disk o l (fresh_disk eps))).
Proof.
  change (fst (on_disk o l (fresh_disk eps))) with ([] ++ fst (on_disk o l (fresh_disk eps))).
  eapply drun_path; [|apply dscript_path]. constructor. apply start_initial.
Qed.
(** a bundle in transit is received, transmitted to n8 and then deleted by the
    user; the same bundle comes in again and is refused *)
Definition passing := on_disk (fate (Some ([hop2], false)) true)
  [DoStart (KReceive transit); DoRun 0; DoRun 1; DoStart (KDelete (bid transit)); DoRun 2; DoStart (KReceive transit); DoRun 3] (fresh_disk []).
Definition sent_to (e : event) : bool := match e with EStep _ (LAct (Transfer _ _) true) => true | _ => false end.
Example C151_case :
  drun node1 false false (fun _ => None) (fun _ _ => false) (fst passing) (snd passing) /\
  existsb sent_to (fst passing) = true /\ sled_get (bid transit) (snd passing).1 = None /\
  sled_meta_of (bid transit) (snd passing).1 <> None.
Proof. split; [apply on_disk_run|]. split; [by vm_compute|]. split; [by vm_compute|]. by vm_compute. Qed.
(** ... also by the node started again on the same files *)
Definition restart_of (y : disk * machine) : disk * machine := (y.1, start_node [] 3000000 2000000).
Definition passing2 := on_disk (fate (Some ([hop2], false)) true) [DoStart (KReceive transit); DoRun 0] (restart_of (snd passing)).
Definition refused_again (e : event) : bool := match e with EStep _ (LAct (SAdd _) None) => true | _ => false end.
Definition taken (e : event) : bool := match e with EStep _ (LAct (SAdd _) (Some true)) => true | _ => false end.
Example C152_case :
  dlives node1 false false (fun _ => None) (fun _ _ => false)
    ((map Ev (fst passing) ++ [Stop]) ++ map Ev (fst passing2)) (snd passing2) /\
  length (filter (fun e => taken e = true) (fst passing)) = 1%nat /\ existsb refused_again (fst passing) = true /\
  existsb refused_again (fst passing2) = true.
Proof.
  split; [|by vm_compute]. eapply dlives_path; [|apply dscript_path].
  eapply dlives_again; [apply drun_dlives, on_disk_run|]. split; [by left|]. split; [done|]. split; [done|]. split; [done|].
  intros x Hx. by apply elem_of_nil in Hx.
Qed.
