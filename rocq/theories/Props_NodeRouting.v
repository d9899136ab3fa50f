(** C134, C135, C136: what the neighbours get from a node that runs epidemic
    routing or spray and wait (model: Pipeline.v with Routing.v, joined in
    NodeRouting.v). *)
From stdpp Require Import prelude strings pretty gmap sorting.
From Coq Require Import NArith ZArith Lia ZifyBool ZifyN ZifyNat.
From Verif Require Import Core StoreMem Peers Routing RoutingProofs IdProofs SawProofs Pipeline PipelineBase PipelineProofs PipelineInv PipelineCount PipelineRun NodeRouting NodeRoutingProofs NodeRoutingBack.
Open Scope N_scope.

(** ** Vocabulary *)
(** the history of an agent that is started empty and given these commands *)
Definition epidemic (cs : list rcmd) : list (rcmd * option answer) := arun e_step (Some ∅) cs.
Definition spraying (cf : saw_conf) (cs : list rcmd) : list (rcmd * option answer) := arun (saw_step cf) (Some ∅) cs.
(** the name of the node at the other end *)
Definition called (s : sender) : string := match eid_node (sd_hop s) with Some n => n | None => "" end.
(** bundle [id] is transmitted to node [n], successfully or not *)
Definition transmitted (ok : bool) (id n : string) (e : event) : bool :=
  match e with
  | EStep _ (LAct (Transfer s b) r) => bool_decide (r = ok) && bool_decide (bid b = id) && bool_decide (called s = n)
  | _ => false
  end.
(** the same to any node but the one [dst] is on, or only to that one *)
Definition relayed (id : string) (dst : eid) (e : event) : bool :=
  match e with
  | EStep _ (LAct (Transfer s b) true) => bool_decide (bid b = id) && bool_decide (eid_node dst <> Some (called s))
  | _ => false
  end.
Definition missed (id : string) (dst : eid) (e : event) : bool :=
  match e with
  | EStep _ (LAct (Transfer s b) false) => bool_decide (bid b = id) && bool_decide (eid_node dst = Some (called s))
  | _ => false
  end.
Definition number (f : event -> bool) (tr : list event) : N := N.of_nat (length (filter (fun e => f e = true) tr)).
(** the bundles that were received, submitted or made by the node *)
Definition entered (tr : list event) : list bundle :=
  flat_map (fun e => match e with
    | EStart (KReceive b) | EStart (KSubmit b) | EStep _ (LAct (NewReport _ _ _) (Some b)) => [b]
    | _ => [] end) tr.
(** the last node says it was [n]; no block is one to be dropped *)
Definition came_from (n : string) (b : bundle) : Prop := exists e, previous_node b = Some e /\ eid_node e = Some n.
Definition nothing_to_drop (b : bundle) : Prop :=
  forall x, x ∈ b_blocks b -> 11 <= k_type x -> kf_remove (k_flags x) = false.

(** ** Counting *)
Lemma number_app f t1 t2 : number f (t1 ++ t2) = number f t1 + number f t2.
Proof. unfold number. rewrite filter_app, app_length. lia. Qed.
Lemma number_cons f e t : number f (e :: t) = (if f e then 1 else 0) + number f t.
Proof.
  unfold number. rewrite filter_cons. destruct (f e) eqn:E.
  - rewrite decide_True by done. cbn [length]. lia.
  - rewrite decide_False by congruence. lia.
Qed.
Lemma number_snoc f tr e : number f (tr ++ [e]) = number f tr + if f e then 1 else 0.
Proof. rewrite number_app, number_cons. change (number f []) with 0. destruct (f e); lia. Qed.
Lemma wsum_number (w : label -> Z) (f : event -> bool) tr :
  (forall e, match e with EStep _ l => w l | _ => 0%Z end = if f e then 1%Z else 0%Z) -> wsum w tr = Z.of_N (number f tr).
Proof.
  intros H. induction tr as [|e tr IH] using rev_ind; [done|]. rewrite wsum_snoc, number_snoc, IH, H. destruct (f e); lia.
Qed.
Lemma won_transmitted id n tr : wsum (won (just id n)) tr = Z.of_N (number (transmitted true id n) tr).
Proof.
  apply wsum_number. intros [| | | | | |i [o r| |]]; try done. destruct o; try done. cbn. destruct r; [|done].
  rewrite (bool_decide_true (true = true)) by done. cbn. unfold just, called, node_or_empty.
  destruct (eid_node (sd_hop s)); cbn; by destruct (_ && _).
Qed.
Lemma won_relayed id dst tr : wsum (won (others id dst)) tr = Z.of_N (number (relayed id dst) tr).
Proof.
  apply wsum_number. intros [| | | | | |i [o r| |]]; try done. destruct o; try done. cbn. destruct r; [|done].
  unfold others. rewrite bool_decide_not. unfold called, node_or_empty. destruct (eid_node (sd_hop s)); cbn; by destruct (_ && _).
Qed.
Lemma lost_missed id dst tr : wsum (lost (final id dst)) tr = Z.of_N (number (missed id dst) tr).
Proof.
  apply wsum_number. intros [| | | | | |i [o r| |]]; try done. destruct o; try done. cbn. destruct r; [done|].
  unfold final, called, node_or_empty. destruct (eid_node (sd_hop s)); cbn; by destruct (_ && _).
Qed.
Lemma entered_born tr : entered tr = born tr.
Proof. done. Qed.

Section props.
Context (host : eid) (gen_reports parallel : bool) (parse_record : list N -> option arecord)
        (lifetime_exceeded : N -> bundle -> bool).
Notation run := (run host gen_reports parallel parse_record lifetime_exceeded).

(** ** C134: under epidemic routing a neighbour gets a bundle once *)
Theorem C134_once_per_neighbour : forall tr m cs id n, run tr m -> joint (epidemic cs) tr ->
  forall t1 e1 t2 e2 t3, tr = t1 ++ e1 :: t2 ++ e2 :: t3 ->
  transmitted true id n e1 = true -> transmitted true id n e2 = true -> False.
Proof.
  intros tr m cs id n Hr Hj t1 e1 t2 e2 t3 -> H1 H2. assert (H := epidemic_won _ _ _ _ _ _ _ _ id n Hr Hj).
  rewrite won_transmitted, number_app, number_cons, H1, number_app, number_cons, H2 in H. lia.
Qed.

(** ** C135: under spray and wait *)
Theorem C135_copies_partial : forall cf tr m cs b, run tr m -> joint (spraying cf cs) tr ->
  filter (fun x => bid x = bid b) (entered tr) = [b] ->
  wf_eid host -> eid_node_id host = Some (sc_local cf) -> wf_eid (b_src b) ->
  (** own bundles L-1 times, others never, plus once for each failed delivery *)
  number (relayed (bid b) (b_dst b)) tr <= sc_l cf - 1 + number (missed (bid b) (b_dst b)) tr /\
  (eid_node_id (b_src b) <> Some (sc_local cf) ->
   number (relayed (bid b) (b_dst b)) tr <= number (missed (bid b) (b_dst b)) tr).
Proof.
  intros cf tr m cs b Hr Hj Hb Hw Hh Hs. assert (H := saw_won _ _ _ _ _ _ _ _ _ _ Hr Hj Hb).
  rewrite won_relayed, lost_missed in H. destruct (String.prefix (sc_local cf) (bid b)) eqn:E.
  - split; [lia|]. intros Hne. destruct Hne. exact (own_prefix host b _ Hw Hs Hh E).
  - split; lia.
Qed.

(** ** C136: not back to where it came from *)
Theorem C136_not_back_partial : forall tr m cs id n, run tr m -> joint (epidemic cs) tr -> n <> "" ->
  (** every copy that came in came from [n], and none was made here *)
  (forall b, EStart (KReceive b) ∈ tr -> bid b = id -> came_from n b /\ nothing_to_drop b) ->
  (forall b, EStart (KSubmit b) ∈ tr -> bid b <> id) ->
  (forall i b st rs out, EStep i (LAct (NewReport b st rs) (Some out)) ∈ tr -> bid out <> id) ->
  forall e, e ∈ tr -> transmitted true id n e = false.
Proof.
  intros tr m cs id n Hr Hj Hn H1 H2 H3 e He. assert (H : (wsum (won (just id n)) tr <= 0)%Z).
  { eapply epidemic_back; [exact Hr|exact Hj|done|exact H3|]. intros x Hx Hid. unfold born in Hx.
    apply elem_of_list_In, in_flat_map in Hx as (e0 & He0 & Hx). apply elem_of_list_In in He0.
    destruct e0 as [[b|b| | | |]| | | | | |i [o r| |]]; try done.
    - destruct Hx as [->|[]]. destruct (H1 _ He0 Hid). done.
    - destruct Hx as [->|[]]. by destruct (H2 _ He0).
    - destruct o; try done. destruct r as [out|]; [|done]. destruct Hx as [->|[]]. by destruct (H3 _ _ _ _ _ He0). }
  rewrite won_transmitted in H. destruct (transmitted true id n e) eqn:E; [|done]. exfalso.
  apply elem_of_list_split in He as (t1 & t2 & ->). rewrite number_app, number_cons, E in H. lia.
Qed.
End props.
Print Assumptions C134_once_per_neighbour.
Print Assumptions C135_copies_partial.
Print Assumptions C136_not_back_partial.

(** ** What is missing *)
(** C135: without the copies gained by failed deliveries *)
Definition C135_full : Prop :=
  forall host gen_reports parallel parse_record lifetime_exceeded cf tr m cs b,
    run host gen_reports parallel parse_record lifetime_exceeded tr m -> joint (spraying cf cs) tr ->
    filter (fun x => bid x = bid b) (entered tr) = [b] ->
    wf_eid host -> eid_node_id host = Some (sc_local cf) -> wf_eid (b_src b) ->
    number (relayed (bid b) (b_dst b)) tr <= sc_l cf - 1 /\
    (eid_node_id (b_src b) <> Some (sc_local cf) -> number (relayed (bid b) (b_dst b)) tr = 0).
(** C136: for every copy that comes in, whatever else the node has of it *)
Definition C136_full : Prop :=
  forall host gen_reports parallel parse_record lifetime_exceeded t1 b t2 m cs n,
    run host gen_reports parallel parse_record lifetime_exceeded (t1 ++ EStart (KReceive b) :: t2) m ->
    joint (epidemic cs) (t1 ++ EStart (KReceive b) :: t2) ->
    n <> "" -> came_from n b -> nothing_to_drop b ->
    forall e, e ∈ t2 -> transmitted true (bid b) n e = false.

(** ** Concrete runs: parts of a script, each with its own fate *)
Definition node1 := Dtn "n1" "".
Definition hop (n : string) := Sender 1 "10.0.0.1:16162" "mtcp" (Dtn n "").
Definition fate (route : option answer) (ok : bool) : oracle := Oracle (fun _ => route) (fun _ => ok) true 7 [1].
Definition go (o : oracle) := script node1 false false (fun _ => None) (fun _ _ => false) o.
Fixpoint gos (l : list (oracle * list instr)) (m : machine) : list event * machine :=
  match l with
  | [] => ([], m)
  | (o, x) :: l => let y := go o x m in let z := gos l (snd y) in (fst y ++ fst z, snd z)
  end.
Lemma gos_sound l : forall m tr, run node1 false false (fun _ => None) (fun _ _ => false) tr m ->
  run node1 false false (fun _ => None) (fun _ _ => false) (tr ++ fst (gos l m)) (snd (gos l m)).
Proof.
  induction l as [|[o x] l IH]; intros m tr Hr; cbn [gos fst snd]; [by rewrite app_nil_r|].
  rewrite app_assoc. apply IH. by apply script_sound.
Qed.
Lemma gos_run l eps u d : run node1 false false (fun _ => None) (fun _ _ => false)
  (fst (gos l (start_node eps u d))) (snd (gos l (start_node eps u d))).
Proof. apply (gos_sound l _ []). constructor. apply start_initial. Qed.
(** the agent's history that goes with a run, given the peers of each query *)
Definition layers : list cla := [Cla 1 "mtcp" true 16162].
Definition neighbour (n : string) : peer := Peer (Dtn n "") (AIp "10.0.0.1") false None [("mtcp", Some 16162)] [] 0 0.
Fixpoint annotate (qs : list (list string)) (tr : list event) : list (rcmd * option answer) :=
  match tr with
  | [] => []
  | EStep _ (LAct (Notify n) _) :: tr => (RNotify n, None) :: annotate qs tr
  | EStep _ (LAct (Route p) a) :: tr =>
      (RSender p (map neighbour (List.hd [] qs)) layers, a) :: annotate (List.tl qs) tr
  | _ :: tr => annotate qs tr
  end.
Lemma joint_app l1 t1 l2 t2 : joint l1 t1 -> joint l2 t2 -> joint (l1 ++ l2) (t1 ++ t2).
Proof.
  intros H1. induction 1; rewrite ?app_nil_r; rewrite ?app_assoc; try done; by econstructor.
Qed.
Lemma annotate_joint qs tr : joint (annotate qs tr) tr.
Proof.
  revert qs. induction tr as [|e tr IH]; intros qs; [constructor|].
  assert (Ha : aside e -> joint (annotate qs tr) (e :: tr)).
  { intros He. apply (joint_app [] [e]); [|apply IH]. apply (j_aside [] []); [constructor|done]. }
  destruct e as [| | | | | |i [o r| |]]; try (by apply Ha). destruct o; try (by apply Ha).
  - apply (joint_app [(_, _)] [_]); [|apply IH]. apply (j_notify [] []). constructor.
  - apply (joint_app [(_, _)] [_]); [|apply IH]. apply (j_route [] []). constructor.
Qed.

(** C135: L is 3.  Two relays take a copy, the delivery to n9 fails, a third
    relay gets one as well. *)
Definition plain := BFlags false false false false false false false.
Definition mine := Bundle plain (Dtn "n9" "in") (Dtn "n1" "app") DtnNone 1000 0 5000 0 0 [Block 1 1 no_kflags (CData [1])].
Definition conf3 := SawConf 3 "dtn://n1/".
Definition spray_to (ss : list string) : oracle := fate (Some (map hop ss, false)) true.
Definition miss : oracle := fate (Some ([hop "n9"], true)) false.
Definition script135 :=
  [(spray_to ["a"; "b"], [DoStart (KSubmit mine); DoRun 0; DoRun 1]);
   (miss, [DoStart KJanitor; DoRun 2]);
   (spray_to ["c"], [DoStart KJanitor; DoRun 3])].
Definition run135 := gos script135 (start_node [Dtn "n1" "app"] 2000000 2000).
Definition asked135 := [["a"; "b"]; ["n9"]; ["c"]].
Lemma run135_agent : spraying conf3 (map fst (annotate asked135 (fst run135))) = annotate asked135 (fst run135).
Proof. by vm_compute. Qed.
Lemma run135_ok : run node1 false false (fun _ => None) (fun _ _ => false) (fst run135) (snd run135) /\
  joint (spraying conf3 (map fst (annotate asked135 (fst run135)))) (fst run135).
Proof.
  split; [exact (gos_run script135 [Dtn "n1" "app"] 2000000 2000)|].
  rewrite run135_agent. exact (annotate_joint asked135 (fst run135)).
Qed.
Example C135_case : filter (fun x => bid x = bid mine) (entered (fst run135)) = [mine] /\
  eid_node_id node1 = Some (sc_local conf3) /\ eid_node_id (b_src mine) = Some (sc_local conf3) /\
  number (relayed (bid mine) (b_dst mine)) (fst run135) = 3 /\ number (missed (bid mine) (b_dst mine)) (fst run135) = 1.
Proof. by vm_compute. Qed.
Theorem C135_full_refuted : ~ C135_full.
Proof.
  intros H. destruct run135_ok as [Hr Hj]. destruct C135_case as (H1 & H2 & _ & H4 & _).
  specialize (H _ _ _ _ _ _ _ _ _ mine Hr Hj H1). rewrite H4 in H.
  assert (W1 : wf_eid node1) by (repeat constructor; done). assert (W2 : wf_eid (b_src mine)) by (repeat constructor; done).
  destruct (H W1 H2 W2) as [H5 _]. change (3 <= 2) in H5. lia.
Qed.

(** C134: the first attempt with a fails, the second works, b gets its copy
    then, and later queries name nobody *)
Definition script134 :=
  [(fate (Some ([hop "a"], false)) false, [DoStart (KSubmit mine); DoRun 0; DoRun 1]);
   (spray_to ["a"], [DoStart KJanitor; DoRun 2]);
   (spray_to ["b"], [DoStart KJanitor; DoRun 3]);
   (spray_to [], [DoStart KJanitor; DoRun 4])].
Definition run134 := gos script134 (start_node [Dtn "n1" "app"] 2000000 2000).
Definition asked134 := [["a"]; ["a"]; ["a"; "b"]; ["a"; "b"]].
Lemma run134_agent : epidemic (map fst (annotate asked134 (fst run134))) = annotate asked134 (fst run134).
Proof. by vm_compute. Qed.
Example C134_case :
  run node1 false false (fun _ => None) (fun _ _ => false) (fst run134) (snd run134) /\
  joint (epidemic (map fst (annotate asked134 (fst run134)))) (fst run134) /\
  number (transmitted false (bid mine) "a") (fst run134) = 1 /\ number (transmitted true (bid mine) "a") (fst run134) = 1 /\
  number (transmitted true (bid mine) "b") (fst run134) = 1 /\ length (annotate asked134 (fst run134)) = 8%nat.
Proof.
  split; [exact (gos_run script134 [Dtn "n1" "app"] 2000000 2000)|]. split.
  - rewrite run134_agent. exact (annotate_joint asked134 (fst run134)).
  - by vm_compute.
Qed.

(** C136: a bundle from a; with a and b around it goes to b only *)
Definition via (n : string) := Bundle plain (Dtn "n9" "in") (Dtn "n8" "app") DtnNone 1000 0 5000 0 0
  [Block 6 2 no_kflags (CPrev (Dtn n "")); Block 1 1 no_kflags (CData [1])].
Definition script136 :=
  [(spray_to [], [DoStart (KReceive (via "a")); DoRun 0; DoRun 1]);
   (spray_to ["b"], [DoStart KJanitor; DoRun 2])].
Definition run136 := gos script136 (start_node [] 2000000 2000).
Definition asked136 := [[]; ["a"; "b"]].
Lemma run136_agent : epidemic (map fst (annotate asked136 (fst run136))) = annotate asked136 (fst run136).
Proof. by vm_compute. Qed.
Lemma via_from n : came_from n (via n) /\ nothing_to_drop (via n).
Proof.
  split; [exists (Dtn n ""); done|]. intros x Hx. repeat (apply elem_of_cons in Hx as [->|Hx]; [done|]). by apply elem_of_nil in Hx.
Qed.
Example C136_case :
  run node1 false false (fun _ => None) (fun _ _ => false) (fst run136) (snd run136) /\
  joint (epidemic (map fst (annotate asked136 (fst run136)))) (fst run136) /\
  came_from "a" (via "a") /\ nothing_to_drop (via "a") /\ entered (fst run136) = [via "a"] /\
  number (transmitted true (bid (via "a")) "b") (fst run136) = 1 /\ number (transmitted true (bid (via "a")) "a") (fst run136) = 0.
Proof.
  split; [exact (gos_run script136 [] 2000000 2000)|]. split; [rewrite run136_agent; exact (annotate_joint asked136 (fst run136))|].
  split; [apply via_from|]. split; [apply via_from|]. by vm_compute.
Qed.
(** a second copy comes from b before b is served: it counts as a duplicate, the
    agent does not hear of it, and b gets the bundle *)
Definition script136d :=
  [(spray_to [], [DoStart (KReceive (via "a")); DoRun 0; DoRun 1]);
   (spray_to [], [DoStart (KReceive (via "b")); DoRun 2]);
   (spray_to ["b"], [DoStart KJanitor; DoRun 3])].
Definition run136d := gos script136d (start_node [] 2000000 2000).
Lemma run136d_agent : epidemic (map fst (annotate asked136 (fst run136d))) = annotate asked136 (fst run136d).
Proof. by vm_compute. Qed.
Definition from_b (e : event) : bool :=
  match e with EStart (KReceive b) => match previous_node b with Some (Dtn "b" _) => true | _ => false end | _ => false end.
Fixpoint before (tr : list event) : list event := match tr with [] => [] | e :: tr => if from_b e then [] else e :: before tr end.
Fixpoint after (tr : list event) : list event := match tr with [] => [] | e :: tr => if from_b e then tr else after tr end.
Lemma run136d_split : fst run136d = before (fst run136d) ++ EStart (KReceive (via "b")) :: after (fst run136d).
Proof. by vm_compute. Qed.
Theorem C136_full_refuted : ~ C136_full.
Proof.
  intros H. assert (Hr := gos_run script136d [] 2000000 2000). change (gos _ _) with run136d in Hr.
  assert (Hj := annotate_joint asked136 (fst run136d)). rewrite <- run136d_agent in Hj.
  remember (map fst (annotate asked136 (fst run136d))) as cs eqn:Ecs. clear Ecs.
  rewrite run136d_split in Hr, Hj. destruct (via_from "b") as [Hb1 Hb2].
  assert (Hn : forall e, e ∈ after (fst run136d) -> transmitted true (bid (via "b")) "b" e = false).
  { eapply H; [exact Hr|exact Hj|done|exact Hb1|exact Hb2]. }
  assert (Hx : existsb (transmitted true (bid (via "b")) "b") (after (fst run136d)) = true) by (by vm_compute).
  apply existsb_exists in Hx as (e & He & Hx). rewrite Hn in Hx; [done|by apply elem_of_list_In].
Qed.
Print Assumptions C135_full_refuted.
Print Assumptions C136_full_refuted.
