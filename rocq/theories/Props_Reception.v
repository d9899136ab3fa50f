(** C32, C42, C63: receptions, counters and deliveries, in every run of the node
    with any number of tasks in any interleaving. *)
From stdpp Require Import prelude strings pretty gmap sorting.
From Coq Require Import NArith Lia ZifyBool ZifyN ZifyNat.
From Verif Require Import Core StoreMem Peers Routing Pipeline PipelineBase PipelineProofs PipelineInv PipelineRun ReceptionProofs.
Open Scope N_scope.

(** ** Specification *)
(** task [i] is the reception of [b], started in [tr] *)
Definition reception (tr : list event) (i : nat) (b : bundle) : Prop := tasks tr !! i = Some (KReceive b).
(** it was counted as incoming, as a duplicate *)
Definition counted_incoming (tr : list event) (i : nat) : Prop := EStep i (LAct (Count Incoming) tt) ∈ tr.
Definition counted_duplicate (tr : list event) (i : nat) : Prop := EStep i (LAct (Count Dups) tt) ∈ tr.
(** somebody removed the bundle with this id from the store, with success *)
Definition removed (id : string) (tr : list event) : Prop := exists k, EStep k (LAct (SRemove id) true) ∈ tr.
(** number of events of a kind *)
Definition number (f : event -> bool) (tr : list event) : nat := length (List.filter f tr).
Definition reception_started (e : event) : bool := match e with EStart (KReceive _) => true | _ => false end.
Definition submission_started (id : string) (e : event) : bool :=
  match e with EStart (KSubmit b) => bool_decide (bid b = id) | _ => false end.
Definition counted (c : counter) (e : event) : bool :=
  match e with EStep _ (LAct (Count c') _) => bool_decide (c' = c) | _ => false end.
Definition acceptance (id : string) (e : event) : bool :=
  match e with EStep _ (LAct (SAdd b) (Some true)) => bool_decide (bid b = id) | _ => false end.
Definition removal (id : string) (e : event) : bool :=
  match e with EStep _ (LAct (SRemove i) true) => bool_decide (i = id) | _ => false end.
(** a bundle reached an application: it was queued or given to its subscriber *)
Definition handed_over (e : event) : bool :=
  match e with
  | EStep _ (LAct (Deliver _ _) Queued) | EStep _ (LAct (Deliver _ _) Handed) => true
  | _ => false
  end.
Definition handed_over_id (id : string) (e : event) : bool :=
  match e with
  | EStep _ (LAct (Deliver _ b) Queued) | EStep _ (LAct (Deliver _ b) Handed) => bool_decide (bid b = id)
  | _ => false
  end.
(** the task cannot go on: it has returned or panicked *)
Definition finished (m : machine) (i : nat) : Prop :=
  forall k p, m_tasks m !! i = Some (k, p) -> forall l q, ~ pstep p l q.

Lemma number_happened (f : event -> bool) (g : label -> bool) tr : (forall e, f e = match e with EStep _ l => g l | _ => false end) -> number f tr = happened g tr.
Proof.
  intros H. unfold number, happened. induction tr as [|e tr IH]; [done|]. rewrite filter_cons. cbn [List.filter].
  rewrite H. destruct e as [| | | | | |i l]; try (rewrite decide_False by done; exact IH).
  destruct (g l); [rewrite decide_True by done; cbn [length]; by rewrite IH|by rewrite decide_False].
Qed.
Lemma number_tasks (f : event -> bool) (g : kind -> nat) tr : (forall e, (if f e then 1 else 0)%nat = match e with EStart k => g k | _ => 0%nat end) ->
  (forall q, g (KForward q) = 0%nat) -> sum_list_with g (tasks tr) = number f tr.
Proof.
  intros H Hf. unfold number. induction tr as [|e tr IH]; [done|].
  rewrite (tasks_app [e] tr : tasks (e :: tr) = _), sum_list_with_app, IH. cbn [List.filter].
  specialize (H e). assert (E : sum_list_with g (tasks [e]) = (if f e then 1 else 0)%nat).
  { rewrite H. destruct e as [k| | | | | |i []]; cbn; rewrite ?Hf; lia. }
  rewrite E. by destruct (f e).
Qed.

Section props.
Context (host : eid) (gen_reports parallel : bool) (parse_record : list N -> option arecord)
        (lifetime_exceeded : N -> bundle -> bool).
Notation run := (run host gen_reports parallel parse_record lifetime_exceeded).

(** ** C32 *)
(** Two different receptions of a bundle are both processed (counted as
    incoming) only if the bundle was removed between their look-ups in the store. *)
Theorem C32_processed_once : forall tr m i j b b', run tr m ->
  reception tr i b -> reception tr j b' -> i <> j -> bid b = bid b' ->
  counted_incoming tr i -> counted_incoming tr j ->
  exists t1 e1 t2 e2 t3, tr = t1 ++ e1 :: t2 ++ e2 :: t3 /\ removed (bid b) t2 /\
    ((e1 = EStep i (LAct (SAdd b) (Some true)) /\ e2 = EStep j (LAct (SAdd b') (Some true))) \/
     (e1 = EStep j (LAct (SAdd b') (Some true)) /\ e2 = EStep i (LAct (SAdd b) (Some true)))).
Proof.
  intros tr m i j b b' Hr Hi Hj Hne Hid Hci Hcj.
  assert (Hadd : forall i b, reception tr i b -> counted_incoming tr i -> EStep i (LAct (SAdd b) (Some true)) ∈ tr).
  { clear -Hr. intros i b Hi Hc.
    assert (Hd : LAct (Count Incoming) tt ∈ did i tr).
    { apply elem_of_list_In, in_flat_map. exists (EStep i (LAct (Count Incoming) tt)). split; [by apply elem_of_list_In|].
      rewrite decide_True by done. by left. }
    destruct (count_incoming _ _ _ _ _ _ _ _ Hr Hd) as (b0 & rest & Hk & E).
    unfold reception in Hi. rewrite Hk in Hi. injection Hi as ->. apply did_elem. rewrite E. left. }
  assert (Hi' := Hadd _ _ Hi Hci). assert (Hj' := Hadd _ _ Hj Hcj). clear Hadd.
  apply elem_of_list_split in Hi' as (ta & tb & Htr). rewrite Htr in Hj'.
  apply elem_of_app in Hj' as [Hj'|Hj'].
  - apply elem_of_list_split in Hj' as (tc & td & ->).
    exists tc, (EStep j (LAct (SAdd b') (Some true))), td, (EStep i (LAct (SAdd b) (Some true))), tb.
    split; [by rewrite Htr, <- app_assoc|]. split; [|by right].
    rewrite Htr, <- app_assoc in Hr. cbn in Hr. rewrite Hid. by eapply accepted_twice.
  - apply elem_of_cons in Hj' as [Hj'|Hj']; [by injection Hj'|].
    apply elem_of_list_split in Hj' as (tc & td & ->).
    exists ta, (EStep i (LAct (SAdd b) (Some true))), tc, (EStep j (LAct (SAdd b') (Some true))), td.
    split; [done|]. split; [|by left]. rewrite Htr in Hr. by eapply accepted_twice.
Qed.

(** What a reception does: it looks the bundle up; only if the bundle was not in
    the store then ([stored], below) it is counted as incoming and processed;
    otherwise all it ever does is to be counted as a duplicate. *)
Theorem C32_duplicates_have_no_effect : forall tr m i b, run tr m -> reception tr i b ->
  counted_duplicate tr i ->
  did i tr = [LAct (SAdd b) (Some false); LAct (Count Dups) tt] /\ ~ counted_incoming tr i.
Proof.
  intros tr m i b Hr Hi Hc.
  assert (Hd : forall c, EStep i (LAct (Count c) tt) ∈ tr -> LAct (Count c) tt ∈ did i tr).
  { intros c H. apply elem_of_list_In, in_flat_map. exists (EStep i (LAct (Count c) tt)). split; [by apply elem_of_list_In|].
    rewrite decide_True by done. by left. }
  assert (E : did i tr = [LAct (SAdd b) (Some false); LAct (Count Dups) tt]).
  { apply Hd in Hc. destruct (reception_shape _ _ _ _ _ _ _ _ _ Hr Hi) as [E|(r & rest & E & Hs)]; rewrite E in Hc; [by apply elem_of_nil in Hc|].
    apply elem_of_cons in Hc as [?|Hc]; [done|]. destruct r as [[]|].
    - destruct Hs as [->|[rest' ->]]; [by apply elem_of_nil in Hc|]. exfalso.
      apply elem_of_list_split in Hc as (h1 & h2 & E'). rewrite E' in E.
      destruct (run_I _ _ _ _ _ _ _ _ _ (LAct (SAdd b) (Some true) :: h1) _ _ (weaken_recv _ _ _ _ lifetime_exceeded) Hr E) as (k & Hk & b0 & -> & E0).
      by apply (f_equal (fun h => match h with LAct (SAdd _) (Some r) :: _ => Some r | _ => None end)) in E0.
    - destruct Hs as [->| ->]; [by apply elem_of_nil in Hc|]. exact E.
    - subst rest. by apply elem_of_nil in Hc. }
  split; [done|]. intros Hc'. apply Hd in Hc'. rewrite E in Hc'.
  apply elem_of_cons in Hc' as [?|Hc']; [done|]. apply elem_of_list_singleton in Hc'. done.
Qed.

(** The look-up decides by the contents of the store: a reception is taken for a
    duplicate iff the bundle is stored at that moment. *)
Theorem C32_lookup_exact : forall t1 i b r t2 m, run (t1 ++ EStep i (LAct (SAdd b) (Some r)) :: t2) m ->
  forall m1, passes host gen_reports parallel parse_record lifetime_exceeded (t1 ++ EStep i (LAct (SAdd b) (Some r)) :: t2) m t1 m1 ->
    (r = false <-> is_Some (mem_get (bid b) (n_store (m_node m1)))).
Proof.
  intros t1 i b r t2 m H m1 H1. apply passes_access in H1 as [H1 _]. rewrite (run_answers _ _ _ _ _ _ _ _ _ _ H), negb_false_iff.
  symmetry. by apply (run_stored host gen_reports parallel parse_record lifetime_exceeded).
Qed.

(** By number: as often as a bundle was accepted it was removed, but once. *)
Theorem C32_accepted_removed : forall tr m id, run tr m ->
  (number (acceptance id) tr
   <= 1 + number (removal id) tr)%nat.
Proof.
  intros tr m id Hr. rewrite (number_happened (acceptance id) (is_accept id)), (number_happened (removal id) (is_removal id)) by (by intros [| | | | | |i [[]| |]]).
  assert (H := accept_count _ _ _ _ _ _ _ id Hr). destruct (stored id tr); lia.
Qed.

(** ** C42 *)
Theorem C42_incoming_and_duplicates : forall tr m, run tr m ->
  n_stats (m_node m) Incoming + n_stats (m_node m) Dups <= N.of_nat (number reception_started tr) /\
  ((forall i b, EStep i (LAct (SAdd b) None) ∉ tr) ->
   (forall i b, reception tr i b -> finished m i) ->
   n_stats (m_node m) Incoming + n_stats (m_node m) Dups = N.of_nat (number reception_started tr)).
Proof.
  intros tr m Hr. rewrite !(run_stats _ _ _ _ _ _ _ _ Hr), <- Nat2N.inj_add.
  rewrite <- (number_tasks reception_started one_reception); [|by intros [[]| | | | | |]|done]. split.
  - assert (H := recv_count_total _ _ _ _ _ _ _ Hr). lia.
  - intros Hn Hf. f_equal. eapply recv_count_all; [done|done|].
    intros i b p Hi. intros l q. refine (Hf i b _ _ _ Hi l q). unfold reception. rewrite <- (run_tasks _ _ _ _ _ _ _ Hr). by rewrite list_lookup_fmap, Hi.
Qed.
Theorem C42_delivered : forall tr m, run tr m ->
  n_stats (m_node m) Delivered <= N.of_nat (number handed_over tr) /\
  ((forall i, finished m i) -> n_stats (m_node m) Delivered = N.of_nat (number handed_over tr)).
Proof.
  intros tr m Hr. rewrite !(run_stats _ _ _ _ _ _ _ _ Hr).
  rewrite (number_happened handed_over is_hit) by (by intros [| | | | | |i [[]| |]]; try done; destruct r). split.
  - assert (H := deliv_total _ _ _ _ _ _ _ Hr). lia.
  - intros Hf. f_equal. eapply deliv_all; [done|]. intros i k p Hi l q. exact (Hf i k p Hi l q).
Qed.
(** every counter shows how often it was counted up *)
Theorem C42_counters_exact : forall tr m c, run tr m ->
  n_stats (m_node m) c = N.of_nat (number (counted c) tr).
Proof.
  intros tr m c Hr. rewrite (run_stats _ _ _ _ _ _ _ _ Hr). f_equal. symmetry. by apply number_happened.
Qed.

(** ** C63 *)
(** Applications get a bundle at most once per acceptance or submission of it ... *)
Theorem C63_delivered_once : forall tr m id, run tr m ->
  (number (handed_over_id id) tr <=
   number (acceptance id) tr +
   number (submission_started id) tr)%nat.
Proof.
  intros tr m id Hr. rewrite (number_happened (acceptance id) (is_accept id)) by (by intros [| | | | | |i [[]| |]]).
  rewrite (number_happened (handed_over_id id) (is_hit_of id)) by (by intros [| | | | | |i [[]| |]]; try done; destruct r).
  rewrite <- (number_tasks (submission_started id) (one_submission id)); [|by intros [[]| | | | | |]; cbn; try case_bool_decide|done].
  by eapply handovers_total.
Qed.
(** ... hence, received ones, at most once more than it was removed; and only at
    the endpoint it is addressed to, by the task that accepted it. *)
Theorem C63_delivered_removed : forall tr m id, run tr m -> number (submission_started id) tr = 0%nat ->
  (number (handed_over_id id) tr <= 1 + number (removal id) tr)%nat.
Proof.
  intros tr m id Hr Hs. assert (H1 := C63_delivered_once _ _ id Hr). assert (H2 := C32_accepted_removed _ _ id Hr). lia.
Qed.
Theorem C63_delivered_where : forall t1 i e b r t2 m, run (t1 ++ EStep i (LAct (Deliver e b) r) :: t2) m ->
  exists b0, bid b = bid b0 /\ e = b_dst b0 /\
    (tasks t1 !! i = Some (KSubmit b0) \/
     tasks t1 !! i = Some (KReceive b0) /\ EStep i (LAct (SAdd b0) (Some true)) ∈ t1).
Proof.
  intros t1 i e b r t2 m Hr.
  destruct (handover _ _ _ _ _ _ _ _ _ _ _ _ _ Hr eq_refl) as (k & b0 & Hk & Ha & -> & Hb & _).
  exists b0. split; [done|]. split; [done|]. destruct Ha as [[-> Ha]| ->]; [right|by left].
  split; [done|]. by apply did_elem.
Qed.
End props.
Print Assumptions C32_processed_once.
Print Assumptions C32_duplicates_have_no_effect.
Print Assumptions C32_lookup_exact.
Print Assumptions C32_accepted_removed.
Print Assumptions C42_incoming_and_duplicates.
Print Assumptions C42_delivered.
Print Assumptions C42_counters_exact.
Print Assumptions C63_delivered_once.
Print Assumptions C63_delivered_removed.
Print Assumptions C63_delivered_where.

(** *** A run: two copies of a bundle for a local application arrive at the same
    time and are handled in turns *)
Definition me := Dtn "n1" "".
Definition bundle1 := Bundle (BFlags false false false false false false false) (Dtn "n1" "in") (Dtn "n5" "out") DtnNone 1000000 0 1000 0 0
  [Block 1 1 no_kflags (CData [104; 105])].
Definition run1 := script me false false (fun _ => None) (fun _ _ => false) (Oracle (fun _ => None) (fun _ => true) true 1 [])
  [DoStart (KReceive bundle1); DoStart (KReceive bundle1); DoSteps 1 1; DoRun 0; DoRun 1]
  (start_node [Dtn "n1" "in"] 2000000 1000000).
Lemma run1_ok : run me false false (fun _ => None) (fun _ _ => false) (fst run1) (snd run1).
Proof. apply script_run, start_initial. Qed.
Example C32_case : reception (fst run1) 0 bundle1 /\ reception (fst run1) 1 bundle1 /\
  counted_incoming (fst run1) 1 /\ counted_duplicate (fst run1) 0.
Proof.
  split; [done|]. split; [done|]. split.
  - assert (H : EStep 1 (LAct (Count Incoming) tt) ∈ take 8 (fst run1)) by (vm_compute; repeat first [apply elem_of_list_here|apply elem_of_list_further]).
    rewrite <- (take_drop 8 (fst run1)). apply elem_of_app. by left.
  - assert (H : EStep 0 (LAct (Count Dups) tt) ∈ take 8 (fst run1)) by (vm_compute; repeat first [apply elem_of_list_here|apply elem_of_list_further]).
    rewrite <- (take_drop 8 (fst run1)). apply elem_of_app. by left.
Qed.
Example C42_case : n_stats (m_node (snd run1)) Incoming = 1 /\ n_stats (m_node (snd run1)) Dups = 1 /\
  n_stats (m_node (snd run1)) Delivered = 1 /\ number reception_started (fst run1) = 2%nat /\
  number handed_over (fst run1) = 1%nat /\ number (handed_over_id (bid bundle1)) (fst run1) = 1%nat.
Proof. vm_compute. done. Qed.
(** accepted, deleted, accepted again: the case of [C32_processed_once] *)
Definition run2 := script me false false (fun _ => None) (fun _ _ => false) (Oracle (fun _ => None) (fun _ => true) true 1 [])
  [DoStart (KReceive bundle1); DoRun 0; DoStart (KDelete (bid bundle1)); DoRun 1; DoStart (KReceive bundle1); DoRun 2]
  (start_node [Dtn "n1" "in"] 2000000 1000000).
Lemma run2_ok : run me false false (fun _ => None) (fun _ _ => false) (fst run2) (snd run2).
Proof. apply script_run, start_initial. Qed.
Example C32_case2 : reception (fst run2) 0 bundle1 /\ reception (fst run2) 2 bundle1 /\
  n_stats (m_node (snd run2)) Incoming = 2 /\ number (acceptance (bid bundle1)) (fst run2) = 2%nat /\
  number (removal (bid bundle1)) (fst run2) = 1%nat /\ number (handed_over_id (bid bundle1)) (fst run2) = 2%nat /\
  forallb (fun t => match snd t with Ret _ => true | _ => false end) (m_tasks (snd run2)) = true.
Proof. vm_compute. done. Qed.
