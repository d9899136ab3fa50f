(** C137-C140: which neighbours a node tries, for the agents for static routes,
    sink, flooding and epidemic routing (model: Pipeline.v with Routing.v, joined
    in NodeRouting.v). *)
From stdpp Require Import prelude strings pretty gmap sorting.
From Coq Require Import NArith Lia ZifyBool ZifyN ZifyNat.
From Verif Require Import Core StoreMem Peers PeersProofs Routing RoutingProofs IdProofs StaticProofs Pipeline PipelineBase PipelineProofs PipelineInv PipelineRun TransferProofs Props_Transfer CauseProofs Props_Static Props_Epidemic Props_Cause NodeRouting NodeRoutingProofs NodeRoutingBack NodeHops Props_NodeRouting.
Open Scope N_scope.

(** ** Vocabulary *)
(** task [i] has nothing left to do *)
Definition over (m : machine) (i : nat) : Prop := exists k q, m_tasks m !! i = Some (k, q) /\ ended q.
(** task [i] tries to transmit bundle [id] over [s] *)
Definition tries (tr : list event) (i : nat) (id : string) (s : sender) : Prop :=
  exists b r, does tr i (Transfer s b) r /\ bid b = id.
(** why a task does not transmit bundle [id] to anybody: it is not in the store
    any more, it has exceeded one of its limits, or its previous node block does
    not hold an endpoint *)
Inductive held_back (tr : list event) (i : nat) (id : string) : Prop :=
| not_stored : does tr i (SGet id) None -> held_back tr i id
| too_old : over_limit tr i id -> held_back tr i id
| garbled b x : does tr i (SGet id) (Some b) -> first_block 6 b = Some x -> (forall e, k_data x <> CPrev e) -> held_back tr i id.
(** the bundles with this id all have this source and destination *)
Definition addressed (tr : list event) (id : string) (src dst : eid) : Prop :=
  forall x, x ∈ entered tr -> bid x = id -> b_src x = src /\ b_dst x = dst.

Lemma joint_query l tr : joint l tr -> forall t1 i p (a : option answer) t2, tr = t1 ++ EStep i (LAct (Route p) a) :: t2 ->
  exists l1 ps clas l2, l = l1 ++ (RSender p ps clas, a) :: l2 /\ joint l1 t1.
Proof.
  revert l tr. assert (Hlast : forall (t1 t2 tr : list event) x e, tr ++ [e] = t1 ++ x :: t2 ->
    (t2 = [] /\ e = x /\ tr = t1) \/ (exists t2', tr = t1 ++ x :: t2')).
  { intros t1 t2 tr x e H. destruct t2 as [|y t2 _] using rev_ind.
    - apply app_inj_tail in H as [-> ->]. by left.
    - right. rewrite app_comm_cons, app_assoc in H. apply app_inj_tail in H as [-> _]. eauto. }
  intros l tr. induction 1 as [|l tr j n' a r' Hj IH|l tr j p ps clas a Hj IH|l tr c a Hj IH Hc|l tr e Hj IH He]; intros t1 i p0 a0 t2 E.
  - by destruct t1.
  - destruct (Hlast _ _ _ _ _ E) as [(-> & Ee & ->)|(t2' & E')]; [done|].
    destruct (IH _ _ _ _ _ E') as (l1 & ps' & cl' & l2 & -> & ?). exists l1, ps', cl', (l2 ++ [(RNotify n', a)]). split; [|done]. by rewrite <- app_assoc.
  - destruct (Hlast _ _ _ _ _ E) as [(-> & Ee & ->)|(t2' & E')].
    + assert (E1 : LAct (Route p) a = LAct (Route p0) a0) by congruence. assert (E2 := lact_op _ _ _ _ E1). injection E2 as <-.
      apply lact_inj in E1 as <-. exists l, ps, clas, []. done.
    + destruct (IH _ _ _ _ _ E') as (l1 & ps' & cl' & l2 & -> & ?). exists l1, ps', cl', (l2 ++ [(RSender p ps clas, a)]). split; [|done]. by rewrite <- app_assoc.
  - destruct (IH _ _ _ _ _ E) as (l1 & ps' & cl' & l2 & -> & ?). exists l1, ps', cl', (l2 ++ [(c, a)]). split; [|done]. by rewrite <- app_assoc.
  - destruct (Hlast _ _ _ _ _ E) as [(-> & Ee & ->)|(t2' & E')]; [by subst e|]. eauto.
Qed.
(** an agent's part of the run up to a query *)
Lemma agent_query {S} (step : S -> rcmd -> option (S * option answer)) s0 cs tr t1 i p (a : option answer) t2 :
  joint (arun step s0 cs) tr -> tr = t1 ++ EStep i (LAct (Route p) a) :: t2 ->
  exists cs1 ps clas cs2, cs = cs1 ++ RSender p ps clas :: cs2 /\ joint (arun step s0 cs1) t1 /\
    arun step s0 (cs1 ++ [RSender p ps clas]) = arun step s0 cs1 ++ [(RSender p ps clas, a)].
Proof.
  intros Hj E. destruct (joint_query _ _ Hj _ _ _ _ _ E) as (l1 & ps & clas & l2 & El & Hj1).
  destruct (arun_split _ _ _ _ _ _ El) as (c1 & c2 & -> & <- & He1 & _). cbn [fst] in *.
  exists c1, ps, clas, c2. split; [done|]. split; [done|]. by rewrite arun_app, He1.
Qed.

Section props.
Context (host : eid) (gen_reports parallel : bool) (parse_record : list N -> option arecord)
        (lifetime_exceeded : N -> bundle -> bool).
Notation run := (run host gen_reports parallel parse_record lifetime_exceeded).

(** what becomes of a neighbour the agent named *)
Lemma named_told t1 i p nodes del t2 m s : run (t1 ++ EStep i (LAct (Route p) (Some (nodes, del))) :: t2) m -> over m i ->
  s ∈ nodes ->
  (exists b r, does t2 i (Transfer s b) r /\ bid b = p_id p /\
     (r = false -> forall n, eid_node (sd_hop s) = Some n -> does t2 i (Notify (SendingFailed (p_id p) n)) tt)) \/ held_back t2 i (p_id p).
Proof.
  intros Hr (k & q & Hk & He) Hs. assert (Ho := named_tried _ _ _ _ _ _ _ _ _ _ _ _ _ _ _ Hr Hk He Hs).
  assert (Hg : forall id b, LAct (SGet id) (Some b) ∈ did i t2 -> bid b = id).
  { intros id b H. apply did_elem in H. eapply run_gets; [exact Hr|]. apply elem_of_app. right. by right. }
  destruct Ho as [b stored r H1 H2 H3 H4|H|b H1 H2|b H1 H2|b x H1 H2 H3|b a mt now H1 H2 H3 H4 H5].
  - left. exists b, r. split; [by apply did_does|]. rewrite (same_primary_bid _ _ H3). split; [by apply Hg|].
    intros Hf n Hn. apply did_does. by apply H4.
  - right. apply not_stored. by apply did_does.
  - right. apply too_old. exists b. split; [by apply did_does|]. split; [by apply Hg|]. left. by apply did_does.
  - right. apply too_old. exists b. split; [by apply did_does|]. split; [by apply Hg|]. right. left. rewrite hop_count_of. unfold hop_stage in H2. unfold hop_of.
    destruct (block_by_type HOP_COUNT_BLOCK b) as [[? ? ? []]|]; try done.
    destruct (limit <? (count + 1) mod 256) eqn:E'; [|done]. apply N.ltb_lt in E'. eauto.
  - right. eapply garbled; [by apply did_does|rewrite first_block_find; exact H2|done].
  - right. apply too_old. exists b. split; [by apply did_does|]. split; [by apply Hg|]. right. right. exists a, mt, now. split.
    { unfold age. rewrite first_block_find. exact H2. }
    rewrite <- (Hg _ _ H1). split; [by apply did_does|]. split; [by apply did_does|]. rewrite <- new_age_Z by exact lifetime_exceeded. lia.
Qed.
Lemma named_tries t1 i p nodes del t2 m s : run (t1 ++ EStep i (LAct (Route p) (Some (nodes, del))) :: t2) m -> over m i ->
  s ∈ nodes -> tries t2 i (p_id p) s \/ held_back t2 i (p_id p).
Proof. intros Hr Ho Hs. destruct (named_told _ _ _ _ _ _ _ _ Hr Ho Hs) as [(b & r & H1 & H2 & _)|H]; [left; by exists b, r|by right]. Qed.
Lemma query_addressed tr m i p a src dst : run tr m -> EStep i (LAct (Route p) a) ∈ tr -> addressed tr (p_id p) src dst ->
  p_src p = src /\ p_dst p = dst.
Proof.
  intros Hr (t1 & t2 & ->)%elem_of_list_split Hu.
  destruct (run_safe _ _ _ _ _ I_prov t1 i _ t2 m (prov _ _ _ _) Hr) as (k & Hk & HI). cbn in HI.
  destruct (run_app_inv _ _ _ _ _ _ _ _ Hr) as [m1 Hr1].
  destruct (origin_ok _ _ _ _ _ (run_inv _ _ _ _ _ _ _ Hr1) Hk HI) as (_ & x & Hx & Hd).
  destruct Hd as (Hsrc & Hdst & _ & _ & Hxid & _). rewrite Hdst, Hsrc. apply Hu; [|done].
  rewrite entered_born, born_app. apply elem_of_app. by left.
Qed.

(** ** C137: static routes *)
(** What leaves the node leaves by the first rule of the table in force that
    matches the bundle and whose next hop could be reached. *)
Theorem C137_only_by_rule : forall glob rs0 cs tr m t1 i s b r t2 src dst,
  run tr m -> joint (arun (st_step glob) (Some rs0) cs) tr ->
  tr = t1 ++ EStep i (LAct (Transfer s b) r) :: t2 -> addressed tr (bid b) src dst ->
  exists ta p a tb cs1 ps clas cs2 rs1 x rs2, t1 = ta ++ EStep i (LAct (Route p) a) :: tb /\
    cs = cs1 ++ RSender p ps clas :: cs2 /\ joint (arun (st_step glob) (Some rs0) cs1) ta /\
    table rs0 cs1 = rs1 ++ x :: rs2 /\
    glob (rt_src x) (eid_string src) = true /\ glob (rt_dst x) (eid_string dst) = true /\
    eid_string (sd_hop s) = rt_via x /\ next_hop_reachable clas ps x /\
    forall y, y ∈ rs1 -> glob (rt_src y) (eid_string src) = true -> glob (rt_dst y) (eid_string dst) = true ->
      ~ next_hop_reachable clas ps y.
Proof.
  intros glob rs0 cs tr m t1 i s b r t2 src dst Hr Hj -> Ha.
  destruct (tried_named _ _ _ _ _ _ _ _ _ _ _ _ Hr) as (ta & p & nodes & del & tb & -> & _ & Hs & Hid).
  rewrite <- Hid in Ha. assert (Hq : p_src p = src /\ p_dst p = dst).
  { eapply (query_addressed _ _ i p (Some (nodes, del))); [exact Hr| |exact Ha]. rewrite <- app_assoc. apply elem_of_app. right. left. }
  destruct Hq as [Hsrc Hdst].
  destruct (agent_query _ _ _ _ ta i p (Some (nodes, del)) (tb ++ EStep i (LAct (Transfer s b) r) :: t2) Hj) as (cs1 & ps & clas & cs2 & Ecs & Hj1 & Hrun).
  { by rewrite <- app_assoc. }
  assert (Hn : nth_error (arun (st_step glob) (Some rs0) (cs1 ++ RSender p ps clas :: [])) (length cs1) = Some (RSender p ps clas, Some (nodes, del))).
  { rewrite Hrun. assert (Hlen : length (arun (st_step glob) (Some rs0) cs1) = length cs1) by (by rewrite <- (map_length fst), arun_cmds).
    rewrite nth_error_app2 by lia. by rewrite Hlen, Nat.sub_diag. }
  destruct (C29_first_matching_route _ _ _ _ _ _ _ _ _ Hn) as [(-> & _)|(rs1 & x & rs2 & s' & Ht & [Hx Hrx] & Hno & -> & Hv & _)].
  { by apply elem_of_nil in Hs. }
  apply elem_of_list_singleton in Hs as ->. unfold applies in Hx. rewrite Hsrc, Hdst in Hx. destruct Hx as [Hx1 Hx2].
  exists ta, p, (Some ([s'], del)), tb, cs1, ps, clas, cs2, rs1, x, rs2. do 8 (split; [done|]).
  intros y Hy H1 H2 H3. apply (Hno y Hy). split; [|done]. unfold applies. by rewrite Hsrc, Hdst.
Qed.
(** A rule that applies is used: when the attempt is over, the bundle was tried
    there, or there is a reason that has nothing to do with routing. *)
Theorem C137_rule_is_used : forall glob rs0 cs tr m t1 i p a t2 src dst,
  run tr m -> joint (arun (st_step glob) (Some rs0) cs) tr ->
  tr = t1 ++ EStep i (LAct (Route p) (Some a)) :: t2 -> over m i -> addressed tr (p_id p) src dst ->
  exists cs1 ps clas cs2, cs = cs1 ++ RSender p ps clas :: cs2 /\ joint (arun (st_step glob) (Some rs0) cs1) t1 /\
    forall x, x ∈ table rs0 cs1 -> glob (rt_src x) (eid_string src) = true -> glob (rt_dst x) (eid_string dst) = true ->
      next_hop_reachable clas ps x ->
      (exists rs1 y rs2 s, table rs0 cs1 = rs1 ++ y :: rs2 /\ (x = y \/ x ∈ rs2) /\
         glob (rt_src y) (eid_string src) = true /\ glob (rt_dst y) (eid_string dst) = true /\
         eid_string (sd_hop s) = rt_via y /\ tries t2 i (p_id p) s) \/ held_back t2 i (p_id p).
Proof.
  intros glob rs0 cs tr m t1 i p [ss del] t2 src dst Hr Hj -> Ho Ha.
  assert (Hq : p_src p = src /\ p_dst p = dst).
  { eapply (query_addressed _ _ i p (Some (ss, del))); [exact Hr| |exact Ha]. apply elem_of_app. right. left. }
  destruct Hq as [Hsrc Hdst].
  destruct (agent_query _ _ _ _ t1 i p (Some (ss, del)) t2 Hj eq_refl) as (cs1 & ps & clas & cs2 & Ecs & Hj1 & Hrun).
  assert (Hn : nth_error (arun (st_step glob) (Some rs0) (cs1 ++ RSender p ps clas :: [])) (length cs1) = Some (RSender p ps clas, Some (ss, del))).
  { rewrite Hrun. assert (Hlen : length (arun (st_step glob) (Some rs0) cs1) = length cs1) by (by rewrite <- (map_length fst), arun_cmds).
    rewrite nth_error_app2 by lia. by rewrite Hlen, Nat.sub_diag. }
  exists cs1, ps, clas, cs2. split; [done|]. split; [done|]. intros x Hx H1 H2 H3.
  destruct (C29_first_matching_route _ _ _ _ _ _ _ _ _ Hn) as [(-> & _ & Hno)|(rs1 & y & rs2 & s' & Et & [Hy _] & Hno & -> & Hv & _)].
  - destruct (Hno x Hx). split; [|done]. unfold applies. by rewrite Hsrc, Hdst.
  - destruct (named_tries _ _ _ _ _ _ _ s' Hr Ho) as [Ht|Hh]; [by left| |by right]. left. exists rs1, y, rs2, s'.
    unfold applies in Hy. rewrite Hsrc, Hdst in Hy. destruct Hy as [Hy1 Hy2]. split; [done|]. split; [|done].
    rewrite Et in Hx. apply elem_of_app in Hx as [Hx|Hx]; [|by apply elem_of_cons in Hx].
    destruct (Hno x Hx). split; [|done]. unfold applies. by rewrite Hsrc, Hdst.
Qed.

(** ** C138: sink *)
Theorem C138_sink_transmits_nothing : forall cs tr m, run tr m -> joint (arun sink_step (Some tt) cs) tr ->
  forall i s b r, ~ does tr i (Transfer s b) r.
Proof.
  intros cs tr m Hr Hj i s b r (t1 & t2 & ->)%elem_of_list_split.
  destruct (tried_named _ _ _ _ _ _ _ _ _ _ _ _ Hr) as (ta & p & nodes & del & tb & -> & _ & Hs & _).
  destruct (agent_query _ _ _ _ ta i p (Some (nodes, del)) (tb ++ EStep i (LAct (Transfer s b) r) :: t2) Hj) as (cs1 & ps & clas & cs2 & Ecs & Hj1 & Hrun).
  { by rewrite <- app_assoc. }
  assert (Hin : (RSender p ps clas, Some (nodes, del)) ∈ arun sink_step (Some tt) (cs1 ++ [RSender p ps clas])).
  { rewrite Hrun. apply elem_of_app. right. left. }
  apply C26_sink in Hin. injection Hin as -> ->. by apply elem_of_nil in Hs.
Qed.

(** ** C139: flooding *)
(** When an attempt is over, exactly the neighbours that could be reached when
    the agent looked were tried, unless the bundle must not leave at all. *)
Theorem C139_flooding_tries_all : forall cs tr m t1 i p a t2,
  run tr m -> joint (arun f_step (Some tt) cs) tr ->
  tr = t1 ++ EStep i (LAct (Route p) a) :: t2 -> over m i ->
  exists cs1 ps clas cs2, cs = cs1 ++ RSender p ps clas :: cs2 /\ joint (arun f_step (Some tt) cs1) t1 /\
    (NoDup (map node_name ps) -> forall n, reach_node ps clas n ->
      (exists s, tries t2 i (p_id p) s /\ called s = n) \/ held_back t2 i (p_id p)).
Proof.
  intros cs tr m t1 i p a t2 Hr Hj -> Ho.
  destruct (agent_query _ _ _ _ t1 i p a t2 Hj eq_refl) as (cs1 & ps & clas & cs2 & Ecs & Hj1 & Hrun).
  exists cs1, ps, clas, cs2. split; [done|]. split; [done|]. intros Hnd n Hn.
  assert (Hin : (RSender p ps clas, a) ∈ arun f_step (Some tt) (cs1 ++ [RSender p ps clas])).
  { rewrite Hrun. apply elem_of_app. right. left. }
  destruct (C26_flooding _ _ _ _ _ Hin Hnd) as (ss & -> & _ & Hss). apply Hss in Hn as (s & Hs & <-).
  destruct (named_tries _ _ _ _ _ _ _ s Hr Ho Hs) as [Ht|Hh]; [left; exists s; done|by right].
Qed.
Theorem C139_flooding_tries_only : forall cs tr m t1 i s b r t2,
  run tr m -> joint (arun f_step (Some tt) cs) tr -> tr = t1 ++ EStep i (LAct (Transfer s b) r) :: t2 ->
  exists ta p a tb cs1 ps clas cs2, t1 = ta ++ EStep i (LAct (Route p) a) :: tb /\ p_id p = bid b /\
    cs = cs1 ++ RSender p ps clas :: cs2 /\ joint (arun f_step (Some tt) cs1) ta /\
    exists q, q ∈ ps /\ sd_hop s = pe_eid q /\ reachable clas q.
Proof.
  intros cs tr m t1 i s b r t2 Hr Hj ->.
  destruct (tried_named _ _ _ _ _ _ _ _ _ _ _ _ Hr) as (ta & p & nodes & del & tb & -> & _ & Hs & Hid).
  destruct (agent_query _ _ _ _ ta i p (Some (nodes, del)) (tb ++ EStep i (LAct (Transfer s b) r) :: t2) Hj) as (cs1 & ps & clas & cs2 & Ecs & Hj1 & Hrun).
  { by rewrite <- app_assoc. }
  exists ta, p, (Some (nodes, del)), tb, cs1, ps, clas, cs2. do 4 (split; [done|]).
  rewrite arun_app in Hrun. apply app_inv_head in Hrun.
  assert (Hst : astate f_step (Some tt) cs1 = Some tt). { clear. induction cs1 as [|c c1 IH]; [done|]. cbn. by destruct c. }
  rewrite Hst in Hrun. cbn in Hrun. injection Hrun as Hrun _. rewrite <- Hrun in Hs.
  apply elem_of_list_omap in Hs as (q & Hq & Hf). exists q. split; [done|]. split; [by apply (first_cla_hop _ _ _ Hf)|].
  apply reach_first. by eexists.
Qed.

(** ** C140: epidemic *)
(** When an attempt is over, every neighbour that could be reached when the
    agent looked and was not served before was tried, or the destination was
    tried instead, or the bundle must not leave at all.  A destination that can be
    reached is tried, and nobody else. *)
Theorem C140_epidemic_tries_all : forall cs tr m t1 i p a t2,
  run tr m -> joint (epidemic cs) tr ->
  tr = t1 ++ EStep i (LAct (Route p) (Some a)) :: t2 -> over m i ->
  exists cs1 ps clas cs2, cs = cs1 ++ RSender p ps clas :: cs2 /\ joint (epidemic cs1) t1 /\
    (NoDup (map node_name ps) -> forall n, reach_node ps clas n -> unserved (epidemic cs1) (p_id p) n ->
      held_back t2 i (p_id p) \/
      (exists s, tries t2 i (p_id p) s /\ (called s = n \/ eid_node (p_dst p) = Some (called s))) /\
      (eid_node (p_dst p) = Some n -> exists s, tries t2 i (p_id p) s /\ called s = n)).
Proof.
  intros cs tr m t1 i p [ss del] t2 Hr Hj -> Ho.
  destruct (agent_query _ _ _ _ t1 i p (Some (ss, del)) t2 Hj eq_refl) as (cs1 & ps & clas & cs2 & Ecs & Hj1 & Hrun).
  exists cs1, ps, clas, cs2. split; [done|]. split; [done|]. intros Hnd n Hn Hu.
  destruct (C24_epidemic_coverage _ _ _ _ _ _ Hrun Hnd) as (H1 & H2 & _).
  assert (Hx : forall s, s ∈ ss -> tries t2 i (p_id p) s \/ held_back t2 i (p_id p)) by (intros s Hs; by eapply named_tries).
  destruct (H1 n Hn Hu) as [(s & Hs & Hsn)|(_ & s & -> & Hd)].
  - destruct (Hx s Hs) as [Ht|Hh]; [|by left]. right. split; [exists s; auto|]. intros _. exists s. auto.
  - destruct (Hx s) as [Ht|Hh]; [by left| |by left]. right. split; [exists s; auto|]. intros Hd'. exists s. split; [done|]. rewrite Hd in Hd'. by injection Hd' as <-.
Qed.
End props.
Print Assumptions C137_only_by_rule.
Print Assumptions C137_rule_is_used.
Print Assumptions C138_sink_transmits_nothing.
Print Assumptions C139_flooding_tries_all.
Print Assumptions C139_flooding_tries_only.
Print Assumptions C140_epidemic_tries_all.

(** ** Concrete runs *)
Definition attempts (tr : list event) : list (string * bool) :=
  flat_map (fun e => match e return list (string * bool) with EStep _ (LAct (Transfer s _) r) => [(called s, r : bool)] | _ => [] end) tr.
Definition all_over (m : machine) : bool := forallb (fun t => match snd t with Ret _ | Panic => true | _ => false end) (m_tasks m).
Lemma all_over_ok m i : all_over m = true -> (i < length (m_tasks m))%nat -> over m i.
Proof.
  intros H Hi. destruct (lookup_lt_is_Some_2 _ _ Hi) as [[k q] E]. exists k, q. split; [done|].
  unfold all_over in H. rewrite forallb_forall in H. specialize (H (k, q)). cbn in H.
  assert (Hq : match q with Ret _ | Panic => true | _ => false end = true) by (apply H; by eapply elem_of_list_In, elem_of_list_lookup_2).
  intros l q' Hs. destruct q; try done; inversion Hs.
Qed.
Definition rules : list route :=
  [Routing.Route 1 "dtn://other/" "*" "dtn://a/"; Routing.Route 2 "*" "dtn://n9/in" "dtn://gone/"; Routing.Route 3 "*" "*" "dtn://b/"; Routing.Route 4 "*" "*" "dtn://a/"].
(** static: only a is there and the transfer fails, then a and b, and b gets it *)
Definition script137 :=
  [(fate (Some ([hop "a"], true)) false, [DoStart (KSubmit mine); DoRun 0; DoRun 1]);
   (fate (Some ([hop "b"], true)) true, [DoStart KJanitor; DoRun 2])].
Definition run137 := gos script137 (start_node [Dtn "n1" "app"] 2000000 2000).
Definition asked137 := [["a"]; ["a"; "b"]].
Definition ex_static := arun (st_step Props_Static.ex_glob) (Some rules).
Lemma run137_agent : ex_static (map fst (annotate asked137 (fst run137))) = annotate asked137 (fst run137).
Proof. by vm_compute. Qed.
Example C137_case :
  run node1 false false (fun _ => None) (fun _ _ => false) (fst run137) (snd run137) /\
  joint (ex_static (map fst (annotate asked137 (fst run137)))) (fst run137) /\
  all_over (snd run137) = true /\ length (m_tasks (snd run137)) = 3%nat /\
  entered (fst run137) = [mine] /\ attempts (fst run137) = [("a", false); ("b", true)].
Proof.
  split; [exact (gos_run script137 [Dtn "n1" "app"] 2000000 2000)|]. split; [rewrite run137_agent; exact (annotate_joint asked137 (fst run137))|].
  by vm_compute.
Qed.
(** sink: a submission and a janitor run with neighbours around *)
Definition script138 := [(fate (Some ([], false)) true, [DoStart (KSubmit mine); DoRun 0; DoRun 1; DoStart KJanitor; DoRun 2])].
Definition run138 := gos script138 (start_node [Dtn "n1" "app"] 2000000 2000).
Lemma run138_agent : arun sink_step (Some tt) (map fst (annotate asked137 (fst run138))) = annotate asked137 (fst run138).
Proof. by vm_compute. Qed.
Example C138_case :
  run node1 false false (fun _ => None) (fun _ _ => false) (fst run138) (snd run138) /\
  joint (arun sink_step (Some tt) (map fst (annotate asked137 (fst run138)))) (fst run138) /\
  all_over (snd run138) = true /\ length (annotate asked137 (fst run138)) = 3%nat /\ attempts (fst run138) = [].
Proof.
  split; [exact (gos_run script138 [Dtn "n1" "app"] 2000000 2000)|]. split; [rewrite run138_agent; exact (annotate_joint asked137 (fst run138))|].
  by vm_compute.
Qed.
(** flooding: a failed transfer and two successful ones, repeated by the janitor *)
Definition script139 :=
  [(fate (Some ([hop "a"], false)) false, [DoStart (KSubmit mine); DoRun 0; DoRun 1]);
   (fate (Some ([hop "a"; hop "b"], false)) true, [DoStart KJanitor; DoRun 2])].
Definition run139 := gos script139 (start_node [Dtn "n1" "app"] 2000000 2000).
Lemma run139_agent : arun f_step (Some tt) (map fst (annotate asked137 (fst run139))) = annotate asked137 (fst run139).
Proof. by vm_compute. Qed.
Example C139_case :
  run node1 false false (fun _ => None) (fun _ _ => false) (fst run139) (snd run139) /\
  joint (arun f_step (Some tt) (map fst (annotate asked137 (fst run139)))) (fst run139) /\
  all_over (snd run139) = true /\ attempts (fst run139) = [("a", false); ("a", true); ("b", true)].
Proof.
  split; [exact (gos_run script139 [Dtn "n1" "app"] 2000000 2000)|]. split; [rewrite run139_agent; exact (annotate_joint asked137 (fst run139))|].
  by vm_compute.
Qed.
(** epidemic: run134 of Props_NodeRouting.v; its third attempt offers the bundle
    to b, which is unserved then *)
Example C140_case :
  run node1 false false (fun _ => None) (fun _ _ => false) (fst run134) (snd run134) /\
  joint (epidemic (map fst (annotate asked134 (fst run134)))) (fst run134) /\
  all_over (snd run134) = true /\ attempts (fst run134) = [("a", false); ("a", true); ("b", true)] /\
  unserved (epidemic (take 5 (map fst (annotate asked134 (fst run134))))) (bid mine) "b".
Proof.
  split; [exact (proj1 C134_case)|]. split; [exact (proj1 (proj2 C134_case))|]. split; [by vm_compute|]. split; [by vm_compute|].
  intros (l1 & e & l2 & El & He & _).
  assert (Hin : e ∈ epidemic (take 5 (map fst (annotate asked134 (fst run134))))) by (rewrite El; apply elem_of_app; right; left).
  clear El. vm_compute in Hin. destruct He as [Hf|(p & ps & clas & a & -> & _ & q & Hq & Hn & _)].
  - destruct Hf as (_ & [Hf|(b & q & Hf & _ & Hp & _)]).
    + repeat (apply elem_of_cons in Hin as [->|Hin]; [discriminate Hf|]). by apply elem_of_nil in Hin.
    + repeat (apply elem_of_cons in Hin as [->|Hin]; [first [discriminate Hf|injection Hf as <-; discriminate Hp]|]). by apply elem_of_nil in Hin.
  - repeat (apply elem_of_cons in Hin as [Hin|Hin];
      [first [discriminate Hin|injection Hin as _ -> _ _; apply elem_of_list_singleton in Hq; subst q; discriminate Hn]|]). by apply elem_of_nil in Hin.
Qed.
