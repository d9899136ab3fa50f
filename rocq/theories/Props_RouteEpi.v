(** C162: epidemic routing gets a bundle to its destination along contacts. *)
From stdpp Require Import prelude strings pretty gmap sorting.
From Coq Require Import NArith Lia ZifyBool ZifyN ZifyNat.
From Verif Require Import Core StoreMem Peers PeersProofs Routing RoutingProofs IdProofs Pipeline PipelineBase PipelineProofs PipelineInv PipelineRun TransferProofs Props_Transfer ReceptionProofs Props_Reception CauseProofs LocalProofs Props_Epidemic Props_Cause Props_Deliver DispatchProofs Props_Janitor Props_Dispatch NodeRouting NodeRoutingProofs NodeRoutingBack Props_NodeRouting NodeHops Props_NodeHops Network NetworkProofs Props_Network Props_Route.
Open Scope N_scope.

(** ** Specification *)
Section spec.
Context (node_of : nat -> settings).
(** [x] uses epidemic routing and meets [y]: if its agent is asked for the bundle
    at all, then also at some time when it can reach [y], and from then on no
    transmission of the bundle to [y] fails.  What is transmitted to [y] without
    failure arrives there.  The agent is alive, and does not reach the destination
    without [y]. *)
Definition meets (tr : list netev) (x y : nat) (b : bundle) : Prop :=
  exists n cs, n <> "" /\ (forall z, eid_node (s_host (node_of z)) = Some n -> z = y) /\
    joint (epidemic cs) (proj x tr) /\
    (forall i p a, does (proj x tr) i (Route p) a -> p_id p = bid b -> a <> None) /\
    (forall p ps clas d, RSender p ps clas ∈ cs -> p_id p = bid b -> eid_node (b_dst b) = Some d -> reach_node ps clas d -> d = n) /\
    ((exists p ps clas, RSender p ps clas ∈ cs /\ p_id p = bid b) ->
       exists cs1 p ps clas cs2, cs = cs1 ++ RSender p ps clas :: cs2 /\ p_id p = bid b /\ reach_node ps clas n /\
         RNotify (SendingFailed (bid b) n) ∉ cs2) /\
    (forall i s b', does (proj x tr) i (Transfer s b') true -> bid b' = bid b -> called s = n -> Arrives x y b' ∈ tr).
(** the nodes of the route: each but the last is not the destination, and leads to
    the next (C160) or meets it *)
Fixpoint contacts (tr : list netev) (ms : nat -> machine) (b : bundle) (x : nat) (l : list nat) : Prop :=
  all_ended (ms x) /\
  match l with
  | [] => True
  | y :: l => for_others (s_host (node_of x)) b /\ ((exists P, leads tr x y (bid b) P) \/ meets tr x y b) /\ contacts tr ms b y l
  end.
End spec.

(** ** Proofs *)
(** who is marked was named, or the bundle came from there *)
Lemma marked_named cs : forall h id n, astate e_step (Some ∅) cs = Some h -> e_contains h id n = true ->
  (forall p ps clas ss, (RSender p ps clas, Some (ss, true)) ∈ arun e_step (Some ∅) cs -> p_id p = id -> hands (RSender p ps clas, Some (ss, true)) id n) ->
  exists l1 e l2, arun e_step (Some ∅) cs = l1 ++ e :: l2 /\ (hands e id n \/ RoutingProofs.came_from e id n) /\ forall x, x ∈ l2 -> ~ fails x id n.
Proof.
  induction cs as [|c cs IH] using rev_ind; intros h id n Hs Hc Hnd.
  { cbn in Hs. injection Hs as <-. unfold e_contains in Hc. by rewrite lookup_empty in Hc. }
  destruct (astate_alive_prefix _ _ _ _ _ Hs) as [h0 Hh0]. rewrite astate_app, Hh0 in Hs. cbn in Hs.
  destruct (e_step h0 c) as [[h1 a]|] eqn:Es; [|done]. cbn in Hs. injection Hs as <-.
  rewrite arun_app, Hh0 in Hnd |- *. cbn in Hnd |- *. rewrite Es in Hnd |- *.
  assert (Hold : e_contains h0 id n = true -> ~ fails (c, a) id n ->
    exists l1 e l2, arun e_step (Some ∅) cs ++ [(c, a)] = l1 ++ e :: l2 /\ (hands e id n \/ RoutingProofs.came_from e id n) /\ forall x, x ∈ l2 -> ~ fails x id n).
  { intros H0 Hf. destruct (IH h0 id n Hh0 H0) as (l1 & e & l2 & -> & He & Hl2).
    { intros p ps clas ss Hin. apply Hnd, elem_of_app. left. exact Hin. }
    exists l1, e, (l2 ++ [(c, a)]). split; [by rewrite <- app_assoc|].
    split; [done|]. intros x [Hx| ->%elem_of_list_singleton]%elem_of_app; [by apply Hl2|done]. }
  assert (Hnew : (hands (c, a) id n \/ RoutingProofs.came_from (c, a) id n) ->
    exists l1 e l2, arun e_step (Some ∅) cs ++ [(c, a)] = l1 ++ e :: l2 /\ (hands e id n \/ RoutingProofs.came_from e id n) /\ forall x, x ∈ l2 -> ~ fails x id n).
  { intros H. exists (arun e_step (Some ∅) cs), (c, a), []. split; [done|]. split; [done|]. by intros x ?%elem_of_nil. }
  destruct c as [p ps clas|nf|]; cbn in Es.
  - destruct (e_query clas p h0 ps []) as [[h2 [ss del]]|] eqn:E; [|done]. injection Es as <- <-.
    destruct (e_query_marks _ _ _ _ _ _ _ E id n Hc) as [H|(Hid & q & s & Hq & Hn & Hf)]; [by apply Hold|].
    destruct (e_contains h0 id n) eqn:Eo; [by apply Hold|].
    destruct del.
    { apply Hnew. left. apply Hnd; [|done]. apply elem_of_app. right. apply elem_of_list_here. }
    pose proof (e_query_covers _ _ _ _ _ _ _ _ E) as [_ Hcov].
    destruct (Hcov q Hq) as (s' & Hs' & Hn'); [by eexists|by rewrite Hn, <- Hid|].
    apply Hnew. left. exists p, ps, clas, ss, false, s'. repeat (split; [done|]). congruence.
  - destruct nf as [i m| |b|i m| |]; injection Es as <- <-; try by apply Hold.
    + apply e_contains_failed in Hc as [Hc Hne]. apply Hold; [done|]. intros [= -> ->]. by apply Hne.
    + destruct (Routing.previous_node b) as [e|] eqn:Ep; [|by apply Hold]. destruct (eid_node e) as [m|] eqn:Em; [|by apply Hold].
      apply e_contains_incoming in Hc as [Hc|(Hm & -> & ->)]; [by apply Hold|]. apply Hnew. right. split; [done|]. right. exists b, e. done.
    + apply e_contains_incoming in Hc as [Hc|(Hm & -> & ->)]; [by apply Hold|]. apply Hnew. right. split; [done|]. by left.
  - injection Es as <- <-. by apply Hold.
Qed.
(** an entry of the agent's history and the run around it *)
Lemma snoc_split {A} (l l1 l2 : list A) x y : l ++ [x] = l1 ++ y :: l2 ->
  (l2 = [] /\ x = y /\ l = l1) \/ exists l2', l2 = l2' ++ [x] /\ l = l1 ++ y :: l2'.
Proof.
  intros H. destruct l2 as [|z l2 _] using rev_ind.
  - apply app_inj_tail in H as [-> ->]. by left.
  - right. rewrite app_comm_cons, app_assoc in H. apply app_inj_tail in H as [-> ->]. eauto.
Qed.
Lemma joint_at l tr : joint l tr -> forall l1 p ps clas a l2, l = l1 ++ (RSender p ps clas, a) :: l2 ->
  exists t1 i t2, tr = t1 ++ EStep i (LAct (Route p) a) :: t2 /\
    forall j n r, EStep j (LAct (Notify n) r) ∈ t2 -> exists a', (RNotify n, a') ∈ l2.
Proof.
  induction 1 as [|l tr j n' a r' Hj IH|l tr j p' ps' clas' a Hj IH|l tr c a Hj IH Hc|l tr e Hj IH He]; intros l1 p ps clas a0 l2 E.
  - by destruct l1.
  - destruct (snoc_split _ _ _ _ _ E) as [(-> & Ee & ->)|(l2' & -> & E')]; [done|].
    destruct (IH _ _ _ _ _ _ E') as (t1 & i & t2 & -> & Ht). exists t1, i, (t2 ++ [EStep j (LAct (Notify n') r')]).
    split; [by rewrite <- app_assoc|]. intros k n r [Hin|Hin]%elem_of_app.
    + destruct (Ht _ _ _ Hin) as [a' Ha']. exists a'. apply elem_of_app. by left.
    + apply elem_of_list_singleton in Hin. injection Hin as _ -> _. exists a. apply elem_of_app. right. left.
  - destruct (snoc_split _ _ _ _ _ E) as [(-> & Ee & ->)|(l2' & -> & E')].
    + injection Ee as -> _ _ ->. exists tr, j, []. split; [done|]. by intros ? ? ? ?%elem_of_nil.
    + destruct (IH _ _ _ _ _ _ E') as (t1 & i & t2 & -> & Ht). exists t1, i, (t2 ++ [EStep j (LAct (Route p') a)]).
      split; [by rewrite <- app_assoc|]. intros k n r [Hin|Hin]%elem_of_app; [|by apply elem_of_list_singleton in Hin].
      destruct (Ht _ _ _ Hin) as [a' Ha']. exists a'. apply elem_of_app. by left.
  - destruct (snoc_split _ _ _ _ _ E) as [(-> & Ee & ->)|(l2' & -> & E')]; [injection Ee as -> _; done|].
    destruct (IH _ _ _ _ _ _ E') as (t1 & i & t2 & -> & Ht). exists t1, i, t2. split; [done|].
    intros k n r Hin. destruct (Ht _ _ _ Hin) as [a' Ha']. exists a'. apply elem_of_app. by left.
  - destruct (IH _ _ _ _ _ _ E) as (t1 & i & t2 & -> & Ht). exists t1, i, (t2 ++ [e]). split; [by rewrite <- app_assoc|].
    intros k n r [Hin|Hin]%elem_of_app; [by eapply Ht|]. apply elem_of_list_singleton in Hin. by subst e.
Qed.
Lemma joint_notify l tr n a : joint l tr -> (RNotify n, a) ∈ l -> ~ elsewhere (RNotify n) -> exists i r, EStep i (LAct (Notify n) r) ∈ tr.
Proof.
  intros Hj Hin Hel. induction Hj as [|l tr j n' a' r' Hj IH|l tr j p' ps' clas' a' Hj IH|l tr c a' Hj IH Hc|l tr e Hj IH He].
  - by apply elem_of_nil in Hin.
  - apply elem_of_app in Hin as [Hin|Hin].
    + destruct (IH Hin) as (i & r & Hi). exists i, r. apply elem_of_app. by left.
    + apply elem_of_list_singleton in Hin. injection Hin as -> _. exists j, r'. apply elem_of_app. right. left.
  - apply elem_of_app in Hin as [Hin|Hin]; [|by apply elem_of_list_singleton in Hin].
    destruct (IH Hin) as (i & r & Hi). exists i, r. apply elem_of_app. by left.
  - apply elem_of_app in Hin as [Hin|Hin]; [by apply IH|]. apply elem_of_list_singleton in Hin. injection Hin as <- _. done.
  - destruct (IH Hin) as (i & r & Hi). exists i, r. apply elem_of_app. by left.
Qed.
Lemma previous_node_same b : Routing.previous_node b = Props_Transfer.previous_node b.
Proof.
  unfold Routing.previous_node, Props_Transfer.previous_node, first_block, PREVIOUS_NODE_BLOCK.
  by destruct (filter _ _).
Qed.
Section proofs.
Context (node_of : nat -> settings) (parse_record : list N -> option arecord)
        (lifetime_exceeded : N -> bundle -> bool).
Notation net_run := (net_run node_of parse_record lifetime_exceeded).
Definition silent (tr : list netev) (y : nat) (id : string) : Prop := forall b', gave tr y b' -> bid b' <> id.
(** no copy comes from a node that transmits none *)
Lemma never_from tr ms id y n : net_run tr ms -> (forall z, eid_node (s_host (node_of z)) = Some n -> z = y) -> silent tr y id ->
  (forall z x, made tr z x -> bid x = id -> first_block 6 x = None) ->
  (forall z x, x ∈ born (proj z tr) -> bid x = id -> NodeRoutingBack.clean x) ->
  forall z, only id (fun x => ~ from n x) (proj z tr).
Proof.
  intros Hn Hname. induction Hn as [ms Hi|tr ms i e m' Hr IH He Hs|tr ms j i b m' Hr IH Hg Hs|tr ms j b Hr IH Hg|tr ms j i b m' Hr IH Hg Hs];
    intros Hsil Hmade Hcl z.
  { intros x Hx. by apply elem_of_nil in Hx. }
  all: assert (IH' : forall z, only id (fun x => ~ from n x) (proj z tr)).
  1,3,5,7: (apply IH;
      [intros b' (t & s & r & H); apply Hsil; exists t, s, r; apply elem_of_app; by left
      |intros z' x Hm; apply (Hmade z'); by apply made_mono
      |intros z' x Hx; apply (Hcl z'); rewrite proj_app, born_app; apply elem_of_app; by left]).
  all: intros x Hx Hid; split; [by eapply Hcl|]; assert (Hx' := Hx); rewrite proj_app, born_app in Hx; apply elem_of_app in Hx as [Hx|Hx];
       [by apply (IH' z)|]; rewrite proj_one in Hx; cbn [at_node] in Hx.
  - destruct (decide (i = z)) as [->|]; [|by apply elem_of_nil in Hx].
    assert (Hm : made (tr ++ [At z e]) z x).
    { exists e. split; [apply elem_of_app; right; left|]. destruct e as [[b| | | | |]| | | | | |t [o r| |]]; cbn in Hx; try (by apply elem_of_nil in Hx); try done.
      - apply elem_of_list_singleton in Hx as ->. by left.
      - destruct o; try (by apply elem_of_nil in Hx). destruct r; [|by apply elem_of_nil in Hx]. apply elem_of_list_singleton in Hx as ->. right. eauto. }
    intros (d & Hd & _). rewrite previous_node_same in Hd. unfold Props_Transfer.previous_node in Hd. by rewrite (Hmade _ _ Hm Hid) in Hd.
  - destruct (decide (i = z)) as [->|]; [|by apply elem_of_nil in Hx]. apply elem_of_list_singleton in Hx as ->.
    destruct (arrives_copies _ _ _ _ j z b _ Hr (net_copies _ _ _ _ _ Hr) Hg) as (_ & _ & _ & _ & _ & Hp).
    intros (d & Hd & Hdn). rewrite previous_node_same, Hp in Hd. injection Hd as <-. apply Hname in Hdn as ->.
    apply (Hsil b); [|done]. destruct Hg as (t & s & r & H). exists t, s, r. apply elem_of_app. by left.
  - by apply elem_of_nil in Hx.
  - destruct (decide (i = z)) as [->|]; [|by apply elem_of_nil in Hx]. apply elem_of_list_singleton in Hx as ->.
    destruct (served _ _ _ _ _ _ _ Hr Hg) as (t1 & t2 & ms1 & E & Hr1 & Hb).
    assert (Ho : only id (fun x => ~ from n x) (proj j t1)) by (eapply only_app; rewrite <- proj_app, <- E; apply IH').
    destruct (kept_same _ _ _ _ _ _ _ _ _ (net_proj _ _ _ _ _ Hr1 j) Ho) as [H _]. apply H. by rewrite <- Hid.
Qed.
(** a node that transmits the bundle took it in *)
Lemma gave_took tr ms x0 y b b' : net_run tr ms -> only_one tr x0 b -> y <> x0 -> no_flagged b -> gave tr y b' -> bid b' = bid b ->
  exists i, took_in (proj y tr) i b.
Proof.
  intros Hn Hu Hy Hf (t & s & r & Hg) Hid. apply proj_at in Hg. apply elem_of_list_split in Hg as (t1 & t2 & E).
  assert (Hr := net_proj _ _ _ _ _ Hn y). rewrite E in Hr. destruct (run_split _ _ _ _ _ _ _ _ _ Hr) as (m1 & m2 & H1 & _ & _).
  eapply run_safe in Hr; [|intros k; apply all_mark]. destruct Hr as (k & Hk & id & st & _ & Hst & Hsp). apply did_elem in Hst.
  destruct (iv_get _ _ (run_inv _ _ _ _ _ _ _ H1) _ _ _ Hst) as [Hid' _]. apply same_primary_bid in Hsp.
  apply elem_of_list_split in Hst as (ta & tb & E'). rewrite E' in H1. assert (Ha := run_answers _ _ _ _ _ _ _ _ _ _ H1). cbn in Ha.
  symmetry in Ha.
  eapply (stored_taken _ _ _ _ _ _ _ _ ta); [done|done|done|done| |]; [rewrite E, E', <- app_assoc; reflexivity|].
  rewrite <- Hid, Hsp. congruence.
Qed.
Lemma gave_dec tr y id : (exists b', gave tr y b' /\ bid b' = id) \/ silent tr y id.
Proof.
  set (f := fun e => match e with At z (EStep _ (LAct (Transfer _ b') _)) => bool_decide (z = y) && bool_decide (bid b' = id) | _ => false end).
  destruct (existsb f tr) eqn:E.
  - left. apply existsb_exists in E as (e & He & Hf). apply elem_of_list_In in He. destruct e as [z [| | | | | |t [o r| |]]| | |]; try done.
    destruct o; try done. cbn in Hf. apply andb_true_iff in Hf as [H1%bool_decide_eq_true H2%bool_decide_eq_true]. subst z.
    exists b. split; [|done]. by exists t, s, r.
  - right. intros b' (t & s & r & H) Hid. assert (existsb f tr = true); [|congruence]. apply existsb_exists. eexists.
    split; [by apply elem_of_list_In|]. cbn. rewrite !bool_decide_true; done.
Qed.
(** the bundle came to [x] from [y]: then [y] had it *)
Lemma was_there tr ms x0 x y n b l e : net_run tr ms -> only_one tr x0 b -> y <> x0 -> no_flagged b -> first_block 6 b = None ->
  (forall z, eid_node (s_host (node_of z)) = Some n -> z = y) ->
  joint l (proj x tr) -> e ∈ l -> RoutingProofs.came_from e (bid b) n -> exists i, took_in (proj y tr) i b.
Proof.
  intros Hn Hu Hy Hf H6 Hname Hj He (Hne & Hc). assert (Hr := net_proj _ _ _ _ _ Hn x). destruct e as [c a]. cbn in Hc.
  destruct Hc as [->|(b1 & d & -> & Hid & Hp & Hd)].
  { destruct (joint_notify _ _ _ _ Hj He) as (i & r & Hi); [by intros []|]. apply elem_of_list_split in Hi as (t1 & t2 & E). rewrite E in Hr.
    eapply run_safe in Hr; [|intros k; apply all_mark]. by destruct Hr as (k & _ & []). }
  destruct (gave_dec tr y (bid b)) as [(b' & Hg & Hb)|Hs]; [by eapply gave_took|]. exfalso.
  assert (Ho := never_from _ _ _ _ n Hn Hname Hs).
  destruct (joint_notify _ _ _ _ Hj He) as (i & r & Hi); [by intros []|]. apply elem_of_list_split in Hi as (t1 & t2 & E). rewrite E in Hr.
  assert (Hx : only (bid b) (fun x => ~ from n x) (proj x tr)).
  { apply Ho.
    - intros z w Hm Hw. by destruct (Hu _ _ Hm Hw) as [_ ->].
    - intros z w Hw Hwid. destruct (is_copy _ _ _ _ _ _ _ _ _ Hn Hu Hf Hw Hwid) as [_ Hob].
      intros k Hk Ht. apply Hf; [|done]. apply (elem_other _ _ Hk) in Ht. rewrite Hob in Ht. by apply elem_of_list_filter in Ht as [_ ?]. }
  rewrite E in Hx. eapply (announced_what _ _ _ _ _ _ (fun x => ~ from n x)); [exact Hr|by eapply only_app|done|]. by exists d.
Qed.
(** the agent, asked for the bundle when [y] was there, once named [y] *)
Lemma meets_passes tr ms x0 x y b j p a : net_run tr ms -> only_one tr x0 b -> no_flagged b -> first_block 6 b = None -> meets node_of tr x y b ->
  all_ended (ms x) -> all_ended (ms y) -> y <> x0 -> does (proj x tr) j (Route p) a -> p_id p = bid b ->
  (exists i, took_in (proj y tr) i b) \/ mishap (proj x tr) b \/ mishap (proj y tr) b.
Proof.
  intros Hn Hu Hf H6 (n & cs & Hne & Hname & Hj & Halive & Hdest & Hmeet & Harr) He Hey Hy Hd Hp.
  assert (Hr := net_proj _ _ _ _ _ Hn x).
  assert (Hadr : forall p ps clas a, (RSender p ps clas, a) ∈ epidemic cs -> p_id p = bid b -> a <> None /\ p_dst p = b_dst b).
  { intros p1 ps1 clas1 a1 Hin Hid. destruct (joint_route _ _ _ _ _ _ Hj Hin) as [i Hi]. split; [by eapply Halive|].
    eapply (query_addressed _ _ _ _ _ _ _ _ _ _ (b_src b) (b_dst b) Hr Hi). rewrite Hid. intros w Hw Hwid. rewrite entered_born in Hw.
    destruct (is_copy _ _ _ _ _ _ _ _ _ Hn Hu Hf Hw Hwid) as [Hpr _]. unfold primary in Hpr. by injection Hpr as _ -> -> _ _ _ _ _ _. }
  assert (Hdel : forall c1 p1 ps1 clas1 c2 h h' ss, cs = c1 ++ RSender p1 ps1 clas1 :: c2 -> p_id p1 = bid b -> p_dst p1 = b_dst b ->
    e_query clas1 p1 h ps1 [] = Some (h', (ss, true)) -> exists s, s ∈ ss /\ hop_name s = n).
  { intros c1 p1 ps1 clas1 c2 h h' ss E Hid Hdst Hq. apply e_query_covers in Hq as (q & s & Hq & Hfc & Hd1 & _ & ->).
    exists s. split; [left|]. rewrite (first_cla_name _ _ _ Hfc). rewrite Hdst in Hd1.
    eapply (Hdest p1 ps1 clas1); [rewrite E; apply elem_of_app; right; left|done|done|]. exists q. rewrite reach_first. split; [done|]. split; [done|]. by eexists. }
  (* the agent was asked *)
  assert (Hask : exists p ps clas, RSender p ps clas ∈ cs /\ p_id p = bid b).
  { apply elem_of_list_split in Hd as (t1 & t2 & E). destruct (agent_query _ _ _ _ _ _ _ _ _ Hj E) as (c1 & ps & clas & c2 & -> & _).
    exists p, ps, clas. split; [|done]. apply elem_of_app. right. left. }
  destruct (Hmeet Hask) as (c1 & p1 & ps1 & clas1 & c2 & Ecs & Hid1 & (q & Hq & Hqn & Hqr) & Hnf).
  assert (Hl : exists a1 rest, epidemic cs = arun e_step (Some ∅) c1 ++ (RSender p1 ps1 clas1, a1) :: rest /\ map fst rest = c2 /\
     arun e_step (astate e_step (Some ∅) c1) [RSender p1 ps1 clas1] = [(RSender p1 ps1 clas1, a1)]).
  { unfold epidemic. rewrite Ecs, arun_app. cbn. destruct (astate e_step (Some ∅) c1 ≫= _) as [[h' a1]|];
      eexists _, _; (split; [reflexivity|]); (split; [apply arun_cmds|done]). }
  destruct Hl as (a1 & rest & El & Erest & Eone).
  destruct (Hadr p1 ps1 clas1 a1) as [Ha1 Hdst1]; [rewrite El; apply elem_of_app; right; left|done|]. destruct a1 as [[ss1 del1]|]; [|done].
  destruct (answered _ _ _ _ Eone) as (h & h' & Eh & Estep). cbn in Estep.
  destruct (e_query clas1 p1 h ps1 []) as [[h2 [ss2 del2]]|] eqn:Eq; [|done]. injection Estep as <- -> ->.
  assert (Hrest : forall z, z ∈ rest -> ~ fails z (bid b) n).
  { intros [c a'] Hz Hfl. unfold fails in Hfl. cbn in Hfl. subst c. apply Hnf. rewrite <- Erest. apply elem_of_list_fmap. by eexists (_, _). }
  (* an entry that hands the bundle to [y], or says it came from there, and no failure since *)
  assert (Hent : exists l1 e l2, epidemic cs = l1 ++ e :: l2 /\ (hands e (bid b) n \/ RoutingProofs.came_from e (bid b) n) /\ forall z, z ∈ l2 -> ~ fails z (bid b) n).
  { destruct (e_contains h (bid b) n) eqn:Ec.
    - destruct (marked_named c1 h (bid b) n Eh Ec) as (l1 & e & l2 & E & H1 & H2).
      { intros p2 ps2 clas2 ss2 Hin Hid2. assert (Hin' := Hin). apply elem_of_list_split in Hin' as (la & lb & E2).
        destruct (arun_split _ _ _ _ _ _ E2) as (ca & cb & E3 & E4 & E5 & _). cbn [fst] in *.
        destruct (answered _ _ _ _ E5) as (g & g' & _ & Eg). cbn in Eg. destruct (e_query clas2 p2 g ps2 []) as [[g2 a2]|] eqn:Eq2; [|done]. injection Eg as <- ->.
        destruct (Hadr p2 ps2 clas2 (Some (ss2, true))) as [_ Hdst2]; [rewrite El; apply elem_of_app; by left|done|].
        destruct (Hdel ca p2 ps2 clas2 (cb ++ RSender p1 ps1 clas1 :: c2) g g2 ss2) as (s & Hs & Hsn); [rewrite Ecs, E3, <- app_assoc; done|done|done|done|].
        exists p2, ps2, clas2, ss2, true, s. done. }
      exists l1, e, (l2 ++ (RSender p1 ps1 clas1, Some (ss1, del1)) :: rest). split; [rewrite El, E, <- app_assoc; done|]. split; [done|].
      intros z [Hz|[->|Hz]%elem_of_cons]%elem_of_app; [by apply H2|done|by apply Hrest].
    - exists (arun e_step (Some ∅) c1), (RSender p1 ps1 clas1, Some (ss1, del1)), rest. split; [done|]. split; [|done]. left.
      assert (Hs : exists s, s ∈ ss1 /\ hop_name s = n).
      { destruct del1; [by eapply Hdel|]. apply e_query_covers in Eq as [_ Hc]. rewrite <- Hqn. apply Hc; [done|by apply reach_first|].
        by rewrite Hid1, Hqn. }
      destruct Hs as (s & Hs & Hsn). exists p1, ps1, clas1, ss1, del1, s. done. }
  destruct Hent as (l1 & e & l2 & E & [Hh|Hc] & Hl2).
  - destruct Hh as (p2 & ps2 & clas2 & ss2 & del2 & s & -> & Hid2 & Hs & Hsn).
    destruct (joint_at _ _ Hj _ _ _ _ _ _ E) as (t1 & i & t2 & Et & Hnot). assert (Hr2 := Hr). rewrite Et in Hr2.
    assert (Hi : over (ms x) i).
    { destruct (run_task_step _ _ _ _ _ _ _ _ _ _ Hr2) as (k & q' & _ & Hk1 & _).
      assert (Hk : tasks (proj x tr) !! i = Some k) by (rewrite Et, tasks_app; by apply lookup_app_l_Some).
      rewrite <- (run_tasks _ _ _ _ _ _ _ Hr), list_lookup_fmap in Hk. destruct (m_tasks (ms x) !! i) as [[k' q2]|] eqn:Em; [|done].
      exists k', q2. split; [done|]. by eapply He. }
    assert (Hmono : forall o r, does t2 i o r -> does (proj x tr) i o r).
    { intros o r H. rewrite Et. apply elem_of_app. right. by right. }
    assert (Hcn : called s = n) by exact Hsn.
    destruct (named_told _ _ _ _ _ _ _ _ _ _ _ _ s Hr2 Hi Hs) as [(b' & r & Ht & Hb & Hfail)|Hh].
    + rewrite Hid2 in Hb, Hfail. destruct r.
      * assert (Ha : Arrives x y b' ∈ tr) by (eapply Harr; [by apply Hmono|done|done]).
        destruct (comes_in _ _ _ _ _ _ _ _ _ _ Hn Hey Hu Hy Hf Ha Hb) as [H|H]; auto.
      * exfalso. assert (Hnode : eid_node (sd_hop s) = Some n) by (unfold called in Hcn; destruct (eid_node (sd_hop s)); [congruence|by subst]).
        specialize (Hfail eq_refl _ Hnode). destruct (Hnot _ _ _ Hfail) as [a' Ha']. by apply (Hl2 _ Ha').
    + right. left. rewrite Hid2 in Hh. destruct Hh as [H|H|b' z H1 H2 H3].
      * eapply is_gone. by apply Hmono.
      * eapply may_not_leave. rewrite Et. rewrite (cons_middle _ t1 t2), app_assoc. apply over_limit_mono. exact H.
      * eapply bad_prev; [by apply Hmono|done|done].
  - left. eapply was_there; try done. rewrite E. apply elem_of_app. right. left.
Qed.

(** ** C162 *)
(** As C160, with epidemic routing on any of the hops: a bundle submitted at the
    first node of a route of contacts is handed to the application it is for at
    the last node; or there is a node of the route where something went wrong, the
    source is not registered at the first node, or the destination is not at the
    last one.  The bundle is submitted without a previous node block. *)
Theorem C162_contacts_deliver : forall tr ms x0 l b i,
  net_run tr ms -> submitted (proj x0 tr) i b -> contacts node_of tr ms b x0 l -> x0 ∉ l ->
  only_one tr x0 b -> bf_admin (b_flags b) = false -> ~ must_delete b -> no_flagged b -> first_block 6 b = None ->
  delivered_at tr (List.last l x0) b \/
  (exists x, x ∈ x0 :: l /\ mishap (proj x tr) b) \/
  (b_src b <> DtnNone /\ unknown_app (proj x0 tr) (b_src b)) \/
  unknown_app (proj (List.last l x0) tr) (b_dst b).
Proof.
  intros tr ms x0 l b i Hn Hi Hrt Hx0 Hu Ha Hd Hf H6.
  eapply (deliver_along node_of parse_record lifetime_exceeded (fun x y => (exists P, leads tr x y (bid b) P) \/ meets node_of tr x y b)); try done.
  - intros x y j p a [Hl|Hm]; intros; [by eapply leads_passes|by eapply meets_passes].
  - clear Hi Hx0. revert Hrt. generalize x0 as x. induction l as [|y l IH]; intros x Hrt; [exact Hrt|].
    destruct Hrt as (H1 & H2 & H3 & H4). split; [done|]. split; [done|]. split; [done|]. by apply IH.
Qed.
End proofs.
Print Assumptions C162_contacts_deliver.

(** ** A concrete case *)
(** Three nodes with epidemic routing and the letter of Props_Route.v.  The first
    transmissions of node 0, to z and n1, fail; a later attempt succeeds, and z
    keeps the bundle.  Node 1 names the destination and not n0, where the bundle
    came from. *)
Definition line (i : nat) : settings :=
  Settings (Dtn (match i with 0%nat => "n0" | 1%nat => "n1" | 2%nat => "n2" | _ => "elsewhere" end) "") false false.
Definition at_first (i : nat) : oracle := fate (Some ([hop "z"; hop "n1"], false)) false.
Definition later (i : nat) : oracle :=
  match i with 0%nat => fate (Some ([hop "z"; hop "n1"], false)) true | _ => fate (Some ([hop "n2"], true)) true end.
Definition begun162 := nscript line (fun _ => None) (fun _ _ => false) at_first [NStart 0 (KSubmit mail); NRun 0 0; NRun 0 1] []
  (fun i => start_node [Dtn (name i) "in"] 2000000 2000).
Definition run162 := nscript line (fun _ => None) (fun _ _ => false) later
  [NStart 0 KJanitor; NRun 0 2; NSend 0 1; NRun 1 0; NRun 1 1; NSend 1 2; NRun 2 0] (fst begun162) (snd begun162).
Lemma begun162_ok : net_run line (fun _ => None) (fun _ _ => false) (fst begun162) (snd begun162).
Proof. unfold begun162. apply nscript_run, net_init. intros i. apply start_initial. Qed.
Lemma run162_ok : net_run line (fun _ => None) (fun _ _ => false) (fst run162) (snd run162).
Proof. unfold run162. apply nscript_run, begun162_ok. Qed.
Definition near0 := [["z"; "n1"]; ["z"; "n1"]].
Definition near1 := [["n0"; "n2"]].
Lemma heard0_agent : epidemic (map fst (annotate near0 (proj 0 (fst run162)))) = annotate near0 (proj 0 (fst run162)).
Proof. by vm_compute. Qed.
Lemma heard1_agent : epidemic (map fst (annotate near1 (proj 1 (fst run162)))) = annotate near1 (proj 1 (fst run162)).
Proof. by vm_compute. Qed.
(** what [meets] asks for, computed *)
Fixpoint met (id n : string) (cs : list rcmd) : bool :=
  match cs with
  | [] => false
  | c :: cs =>
      met id n cs ||
      match c with
      | RSender p ps clas =>
          bool_decide (p_id p = id) &&
          existsb (fun q => bool_decide (node_name q = n) && match first_cla clas q with Some _ => true | None => false end) ps &&
          forallb (fun c => match c with RNotify (SendingFailed i m) => negb (bool_decide (i = id) && bool_decide (m = n)) | _ => true end) cs
      | _ => false
      end
  end.
Lemma met_spec id n cs : met id n cs = true -> exists cs1 p ps clas cs2, cs = cs1 ++ RSender p ps clas :: cs2 /\ p_id p = id /\
  reach_node ps clas n /\ RNotify (SendingFailed id n) ∉ cs2.
Proof.
  induction cs as [|c cs IH]; [done|]. cbn [met]. intros [H|H]%orb_true_iff.
  - destruct (IH H) as (cs1 & p & ps & clas & cs2 & -> & ?). exists (c :: cs1), p, ps, clas, cs2. done.
  - destruct c as [p ps clas| |]; [|done..]. apply andb_true_iff in H as [[H1%bool_decide_eq_true H2]%andb_true_iff H3].
    exists [], p, ps, clas, cs. split; [done|]. split; [done|]. split.
    + apply existsb_exists in H2 as (q & Hq & [Hn%bool_decide_eq_true Hc]%andb_true_iff). exists q. split; [by apply elem_of_list_In|]. split; [done|].
      apply reach_first. destruct (first_cla clas q); [by eexists|done].
    + intros Hin. rewrite forallb_forall in H3. apply elem_of_list_In in Hin. specialize (H3 _ Hin). cbn in H3. by rewrite !bool_decide_true in H3.
Qed.
Definition good_sends (tr : list netev) (x y : nat) (n : string) : bool :=
  forallb (fun e => match e return bool with
                    | EStep _ (LAct (Transfer s b') r) => negb r || negb (bool_decide (called s = n)) || bool_decide ((true, x, y, b') ∈ moves tr)
                    | _ => true
                    end) (proj x tr).
Lemma meets_ok tr x y b n d qs : n <> "" -> (forall z, eid_node (s_host (line z)) = Some n -> z = y) ->
  epidemic (map fst (annotate qs (proj x tr))) = annotate qs (proj x tr) ->
  forallb (fun a => match snd a with Some _ => true | None => false end) (asks_of (proj x tr)) = true ->
  eid_node (b_dst b) = Some d ->
  forallb (fun q => negb (bool_decide (d ∈ map node_name (fst q))) || bool_decide (d = n)) (queries (map fst (annotate qs (proj x tr)))) = true ->
  met (bid b) n (map fst (annotate qs (proj x tr))) = true ->
  good_sends tr x y n = true -> meets line tr x y b.
Proof.
  intros Hne Hname Hag Hal Hd Hdest Hmet Hgs. exists n, (map fst (annotate qs (proj x tr))).
  split; [done|]. split; [done|]. split; [rewrite Hag; apply annotate_joint|]. split; [|split; [|split]].
  - intros i p' a H _ ->. apply asks_spec in H. rewrite forallb_forall in Hal. apply elem_of_list_In in H. by specialize (Hal _ H).
  - intros p' ps clas d' Hin _ Hd' (q & Hq & Hqn & _). rewrite Hd in Hd'. injection Hd' as <-.
    assert (H : (ps, clas) ∈ queries (map fst (annotate qs (proj x tr)))) by (apply elem_of_list_omap; by exists (RSender p' ps clas)).
    rewrite forallb_forall in Hdest. apply elem_of_list_In in H. specialize (Hdest _ H). cbn [fst] in Hdest.
    rewrite bool_decide_true in Hdest; [by apply bool_decide_eq_true in Hdest|]. apply elem_of_list_fmap. by exists q.
  - intros _. by apply met_spec.
  - intros i s b' H _ Hc. unfold good_sends in Hgs. rewrite forallb_forall in Hgs. unfold does in H. apply elem_of_list_In in H.
    specialize (Hgs _ H). cbn in Hgs. rewrite bool_decide_true in Hgs by done. apply bool_decide_eq_true in Hgs. by apply arrives_moves.
Qed.
Lemma run162_meets0 : meets line (fst run162) 0 1 mail.
Proof.
  apply (meets_ok (fst run162) 0 1 mail "n1" "n2" near0).
  1: discriminate. 1: by intros [|[|[|z]]] H. 1: exact heard0_agent. all: vm_compute; reflexivity.
Qed.
Lemma run162_meets1 : meets line (fst run162) 1 2 mail.
Proof.
  apply (meets_ok (fst run162) 1 2 mail "n2" "n2" near1).
  1: discriminate. 1: by intros [|[|[|z]]] H. 1: exact heard1_agent. all: vm_compute; reflexivity.
Qed.
Lemma run162_one : only_one (fst run162) 0 mail.
Proof.
  intros j b' Hm _. apply mades_spec in Hm. replace (mades (fst run162)) with [(0%nat, mail)] in Hm by (by vm_compute).
  apply elem_of_list_singleton in Hm. by injection Hm as -> ->.
Qed.
Lemma run162_ended x : (x < 3)%nat -> all_ended (snd run162 x).
Proof. intros H. destruct x as [|[|[|x]]]; [apply all_ended_ok; vm_compute; reflexivity..|lia]. Qed.
Lemma run162_delivered : delivered_at (fst run162) 2 mail.
Proof. apply delivered_ok. vm_compute. reflexivity. Qed.
Example C162_case :
  net_run line (fun _ => None) (fun _ _ => false) (fst run162) (snd run162) /\
  submitted (proj 0 (fst run162)) 0 mail /\
  contacts line (fst run162) (snd run162) mail 0 [1%nat; 2%nat] /\ first_block 6 mail = None /\
  only_one (fst run162) 0 mail /\
  number (transmitted false (bid mail) "n1") (proj 0 (fst run162)) = 1 /\
  number (transmitted true (bid mail) "n0") (proj 1 (fst run162)) = 0 /\
  delivered_at (fst run162) 2 mail.
Proof.
  split; [exact run162_ok|]. split; [by vm_compute|].
  split; [|split; [reflexivity|split; [exact run162_one|split; [by vm_compute|split; [by vm_compute|exact run162_delivered]]]]].
  split; [apply run162_ended; lia|]. split; [by vm_compute|]. split; [right; exact run162_meets0|].
  split; [apply run162_ended; lia|]. split; [by vm_compute|]. split; [right; exact run162_meets1|].
  split; [apply run162_ended; lia|exact I].
Qed.
