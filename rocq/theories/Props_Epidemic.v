(** C22-C26: epidemic, flooding and sink routing (model: Routing.v). *)
From Verif Require Import Core Peers PeersProofs Routing RoutingProofs.
From stdpp Require Import prelude strings pretty gmap.
From Coq Require Import NArith Lia.
Open Scope N_scope.

(** ** Vocabulary.  A history is the list of commands the agent received, each
    with the answer it gave (if any). *)
(** the history of an agent started empty *)
Definition epidemic (cs : list rcmd) : list (rcmd * option answer) := arun e_step (Some ∅) cs.
(** bundle [id] is handed out for transmission to node [n] *)
Definition handed (e : rcmd * option answer) (id n : string) : Prop :=
  exists p ps clas ss del s, e = (RSender p ps clas, Some (ss, del)) /\ p_id p = id /\ s ∈ ss /\ node_or_empty (sd_hop s) = n.
(** a failure report for bundle [id] and node [n] *)
Definition failure (e : rcmd * option answer) (id n : string) : Prop := fst e = RNotify (SendingFailed id n).
(** bundle [id] arrived and node [n] is its previous node *)
Definition received_from (e : rcmd * option answer) (id n : string) : Prop :=
  n <> "" /\ (fst e = RNotify (IncomingNoPrev id n) \/
    exists b p, fst e = RNotify (IncomingBundle b) /\ bid b = id /\ previous_node b = Some p /\ eid_node p = Some n).
(** peer [q] can be reached: it lists a convergence layer that runs here *)
Definition reachable (clas : list cla) (q : peer) : Prop :=
  exists want c, want ∈ pe_clas q /\ c ∈ clas /\ cl_name c = fst want /\ cl_accepting c = true.
Definition reach_node (ps : list peer) (clas : list cla) (n : string) : Prop :=
  exists q, q ∈ ps /\ node_name q = n /\ reachable clas q.
(** [P] held at some point of the history and no failure for (id, n) was
    reported since *)
Definition since_failure (l : list (rcmd * option answer)) (id n : string) (P : rcmd * option answer -> Prop) : Prop :=
  exists l1 e l2, l = l1 ++ e :: l2 /\ P e /\ forall x, x ∈ l2 -> ~ failure x id n.

(** ** C22 *)
Theorem C22_epidemic_no_double : forall cs id n l1 e1 l2 e2 l3,
  epidemic cs = l1 ++ e1 :: l2 ++ e2 :: l3 -> handed e1 id n -> handed e2 id n ->
  exists x, x ∈ l2 /\ failure x id n.
Proof.
  intros cs id n l1 e1 l2 e2 l3 Hrun H1 H2. unfold epidemic in Hrun.
  destruct (arun_split _ _ _ _ _ _ Hrun) as (c1 & c2 & -> & Hl1 & He1 & Hrest).
  assert (Ha : exists a, e1 = (fst e1, Some a)). { destruct H1 as (p & ps & clas & ss & del & s & -> & _). by eexists. }
  destruct Ha as [a Ha]. rewrite Ha in He1 at 2. destruct (answered _ _ _ _ He1) as (h & h' & Hh & Hstep).
  rewrite astate_app, Hh in Hrest. cbn in Hrest. rewrite Hstep in Hrest. cbn in Hrest.
  eapply e_marked_not_handed; [|exact Hrest|exact H2].
  eapply e_step_hands; [exact Hstep|]. by rewrite <- Ha.
Qed.
Print Assumptions C22_epidemic_no_double.
(** ... nor twice in one answer. *)
Theorem C22_epidemic_once_per_answer : forall cs p ps clas ss del,
  (RSender p ps clas, Some (ss, del)) ∈ epidemic cs -> NoDup (map (fun s => node_or_empty (sd_hop s)) ss).
Proof.
  intros cs p ps clas ss del (l1 & l2 & Hrun)%elem_of_list_split.
  destruct (arun_split _ _ _ _ _ _ Hrun) as (c1 & c2 & -> & Hl1 & He1 & Hrest). cbn [fst] in *.
  destruct (answered _ _ _ _ He1) as (h & h' & Hh & Hstep). cbn in Hstep.
  destruct (e_query clas p h ps []) as [[h2 [ss2 del2]]|] eqn:E; [|done]. injection Hstep as <- -> ->.
  eapply e_query_answer; [exact E|by intros ? ?%elem_of_nil|apply NoDup_nil_2].
Qed.
Print Assumptions C22_epidemic_once_per_answer.

(** ** C23 *)
Theorem C23_epidemic_not_back : forall cs id n l1 e1 l2 e2 l3,
  epidemic cs = l1 ++ e1 :: l2 ++ e2 :: l3 -> received_from e1 id n -> handed e2 id n ->
  exists x, x ∈ l2 /\ failure x id n.
Proof.
  intros cs id n l1 e1 l2 e2 l3 Hrun H1 H2. unfold epidemic in Hrun.
  destruct (arun_split _ _ _ _ _ _ Hrun) as (c1 & c2 & -> & Hl1 & He1 & Hrest).
  destruct (astate e_step (Some ∅) c1) as [h|] eqn:Hh.
  - destruct (e_step h (fst e1)) as [[h' a]|] eqn:Es.
    + assert (Ha : e1 = (fst e1, a)). { cbn in He1. rewrite Es in He1. cbn in He1. by injection He1 as <-. }
      rewrite astate_app, Hh in Hrest. cbn in Hrest. rewrite Es in Hrest. cbn in Hrest.
      eapply e_marked_not_handed; [|exact Hrest|exact H2]. eapply e_step_came; [exact Es|]. by rewrite <- Ha.
    + exfalso. destruct H1 as (_ & [H1|(b & p & H1 & _)]); rewrite H1 in Es; done.
  - exfalso. rewrite astate_app, Hh, astate_dead, arun_dead in Hrest.
    assert (Hin : e2 ∈ map (fun c : rcmd => (c, None : option answer)) c2). { rewrite Hrest. apply elem_of_app. right. apply elem_of_list_here. }
    apply elem_of_list_fmap in Hin as (c & -> & _). by destruct H2 as (p & ps & clas & ss & del & s & ? & _).
Qed.
Print Assumptions C23_epidemic_not_back.

(** ** C24 *)
(** At a query, [n] is not yet served: since the last failure report for it,
    the bundle was not received from [n] and not asked for while [n] was
    reachable. *)
Definition unserved (l : list (rcmd * option answer)) (id n : string) : Prop :=
  ~ since_failure l id n (fun e => received_from e id n \/
      exists p ps clas a, e = (RSender p ps clas, Some a) /\ p_id p = id /\ reach_node ps clas n).
Lemma reach_first clas q : reachable clas q <-> is_Some (first_cla clas q).
Proof. symmetry. apply first_cla_serves. Qed.
Lemma unserved_free cs h id n : astate e_step (Some ∅) cs = Some h -> unserved (epidemic cs) id n -> e_contains h id n = false.
Proof.
  intros Hs Hu. apply not_true_is_false. intros Hc. apply Hu. destruct (e_marked_why cs h id n Hs Hc) as (l1 & e & l2 & Hl & He & Hf).
  exists l1, e, l2. split; [exact Hl|]. split; [|exact Hf]. destruct He as [(p & ps & clas & a & q & -> & Hid & Hq & Hn & Hfc)|He]; [|by left].
  right. exists p, ps, clas, a. split; [done|]. split; [done|]. exists q. rewrite reach_first. done.
Qed.
Theorem C24_epidemic_coverage : forall cs p ps clas ss del,
  epidemic (cs ++ [RSender p ps clas]) = epidemic cs ++ [(RSender p ps clas, Some (ss, del))] ->
  NoDup (map node_name ps) ->
  (** everybody reachable and unserved gets it, unless the destination does *)
  (forall n, reach_node ps clas n -> unserved (epidemic cs) (p_id p) n ->
     (exists s, s ∈ ss /\ node_or_empty (sd_hop s) = n) \/
     (del = true /\ exists s, ss = [s] /\ eid_node (p_dst p) = Some (node_or_empty (sd_hop s)))) /\
  (** a reachable unserved destination gets it alone, and the bundle is removed *)
  (forall n, eid_node (p_dst p) = Some n -> reach_node ps clas n -> unserved (epidemic cs) (p_id p) n ->
     del = true /\ exists s, ss = [s] /\ node_or_empty (sd_hop s) = n) /\
  (** only then is the bundle removed *)
  (del = true -> exists s n, ss = [s] /\ node_or_empty (sd_hop s) = n /\ eid_node (p_dst p) = Some n /\ reach_node ps clas n).
Proof.
  intros cs p ps clas ss del Hrun Hnd. unfold epidemic in Hrun. rewrite arun_app in Hrun. apply app_inv_head in Hrun.
  destruct (answered _ _ _ _ Hrun) as (h & h' & Hh & Hstep). cbn in Hstep.
  destruct (e_query clas p h ps []) as [[h2 [ss2 del2]]|] eqn:E; [|done]. injection Hstep as <- -> ->.
  pose proof (e_query_covers _ _ _ _ _ _ _ _ E) as Hcov.
  assert (Hdel : del = true -> exists q s, q ∈ ps /\ first_cla clas q = Some s /\ eid_node (p_dst p) = Some (node_name q) /\ ss = [s]).
  { intros ->. destruct Hcov as (q & s & Hq & Hf & Hd & _ & Hs). eauto 10. }
  split; [|split].
  - intros n (q & Hq & <- & Hr) Hu. pose proof (unserved_free cs h (p_id p) (node_name q) Hh Hu) as Hfree. rewrite reach_first in Hr. destruct del.
    + right. split; [done|]. destruct Hdel as (q' & s & Hq' & Hf & Hd & ->); [done|]. exists s. split; [done|].
      by rewrite Hd, <- (first_cla_name _ _ _ Hf).
    + left. destruct Hcov as [_ Hcov]. by apply Hcov.
  - intros n Hd (q & Hq & <- & Hr) Hu. pose proof (unserved_free cs h (p_id p) (node_name q) Hh Hu) as Hfree. rewrite reach_first in Hr.
    destruct Hr as [s Hs]. destruct (e_query_direct _ _ _ _ _ _ _ _ q s E) as [-> ->]; try done. split; [done|]. exists s. split; [done|].
    by apply (first_cla_name _ _ _ Hs).
  - intros Ht. destruct (Hdel Ht) as (q & s & Hq & Hf & Hd & ->). exists s, (node_name q). split; [done|]. split; [apply (first_cla_name _ _ _ Hf)|].
    split; [done|]. exists q. rewrite reach_first. split; [done|]. split; [done|]. by eexists.
Qed.
Print Assumptions C24_epidemic_coverage.
(** A peer for which the transfer failed is unserved until the next query. *)
Theorem C24_epidemic_retry : forall cs id n cs',
  (forall c, c ∈ cs' -> exists x y, c = RNotify (SendingFailed x y)) ->
  unserved (epidemic (cs ++ RNotify (SendingFailed id n) :: cs')) id n.
Proof.
  intros cs id n cs' Hcs' (l1 & e & l2 & Hl & He & Hf). unfold epidemic in Hl. rewrite arun_app in Hl.
  set (f := (RNotify (SendingFailed id n), None : option answer)).
  assert (Hrest : exists tl, arun e_step (astate e_step (Some ∅) cs) (RNotify (SendingFailed id n) :: cs') = f :: tl /\
     forall x, x ∈ tl -> exists i j, fst x = RNotify (SendingFailed i j)).
  { assert (Hgen : forall s x, x ∈ arun e_step s cs' -> exists i j, fst x = RNotify (SendingFailed i j)).
    { intros s x Hx. apply Hcs'. rewrite <- (arun_cmds e_step s cs'). apply elem_of_list_fmap. eauto. }
    destruct (astate e_step (Some ∅) cs) as [h|]; cbn; eexists; (split; [reflexivity|]); apply Hgen. }
  destruct Hrest as (tl & Hrest & Htl). rewrite Hrest in Hl.
  assert (Hnot : ~ (e = f \/ e ∈ tl)).
  { intros Hin. assert (Hfe : exists i j, fst e = RNotify (SendingFailed i j)) by (destruct Hin as [->|Hin]; [eauto|by apply Htl]).
    destruct Hfe as (i & j & Hfe). destruct He as [(_ & [He|(b & q & He & _)])|(p & ps & clas & a & -> & _)]; try (rewrite He in Hfe); done. }
  destruct (decide (length l1 < length (arun e_step (Some ∅) cs))%nat) as [Hlt|Hge].
  - apply (Hf f); [|done]. assert (Hin : f ∈ drop (S (length l1)) (l1 ++ e :: l2)).
    { rewrite <- Hl. rewrite drop_app_le by lia. apply elem_of_app. right. apply elem_of_list_here. }
    replace (drop (S (length l1)) (l1 ++ e :: l2)) with l2 in Hin; [done|].
    rewrite drop_app_ge by lia. replace (S (length l1) - length l1)%nat with 1%nat by lia. done.
  - apply Hnot. assert (Hin : e ∈ drop (length (arun e_step (Some ∅) cs)) (arun e_step (Some ∅) cs ++ f :: tl)).
    { rewrite Hl. rewrite drop_app_le by lia. apply elem_of_app. right. apply elem_of_list_here. }
    rewrite drop_app in Hin. by apply elem_of_cons in Hin.
Qed.
Print Assumptions C24_epidemic_retry.

(** ** C25 *)
Definition C25_full : Prop := forall cs p ps clas ss del n,
  epidemic (cs ++ [RSender p ps clas]) = epidemic cs ++ [(RSender p ps clas, Some (ss, del))] ->
  NoDup (map node_name ps) ->
  (forall d, eid_node (p_dst p) = Some d -> ~ reach_node ps clas d) ->
  reach_node ps clas n ->
  ~ since_failure (epidemic cs) (p_id p) n (fun e => received_from e (p_id p) n \/ handed e (p_id p) n) ->
  exists s, s ∈ ss /\ node_or_empty (sd_hop s) = n.
Definition ex_p (name : string) : peer := Peer (Dtn name "") (AIp "10.0.0.1") false None [("mtcp", Some 16162)] [] 0 0.
Definition ex_c : list cla := [Cla 1 "mtcp" true 16162].
Definition ex_pack : pack := Pack (Dtn "src" "") (Dtn "z" "in") 0 0 0 "dtn://src/-0-0" false no_constraints.
(** While the destination z is being served directly, relay a (earlier in the
    table) is marked as served; it is never offered the bundle. *)
Theorem C25_served_only_if_handed_refuted : ~ C25_full.
Proof.
  intros H.
  destruct (H [RSender ex_pack [ex_p "a"; ex_p "z"] ex_c; RNotify (SendingFailed "dtn://src/-0-0" "z")] ex_pack [ex_p "a"] ex_c [] false "a")
    as (s & Hs & _).
  - vm_compute. reflexivity.
  - repeat constructor. by intros ?%elem_of_nil.
  - intros d [= <-] (q & ->%elem_of_list_singleton & Hn & _). discriminate.
  - exists (ex_p "a"). split; [by apply elem_of_list_singleton|]. split; [done|]. exists ("mtcp", Some 16162), (Cla 1 "mtcp" true 16162).
    split; [by apply elem_of_list_singleton|]. split; [by apply elem_of_list_singleton|]. done.
  - intros (l1 & e & l2 & Hl & He & _).
    assert (Hin : e ∈ epidemic [RSender ex_pack [ex_p "a"; ex_p "z"] ex_c; RNotify (SendingFailed "dtn://src/-0-0" "z")]).
    { rewrite Hl. apply elem_of_app. right. apply elem_of_list_here. }
    vm_compute in Hin. apply elem_of_cons in Hin as [->|[->|?%elem_of_nil]%elem_of_cons]; [..|done].
    + destruct He as [(_ & [He|(b & q & He & _)])|(p & ps & clas & ss & del & s & He & _ & Hs & Hn)]; try discriminate.
      injection He as <- <- <- <- <-. apply elem_of_list_singleton in Hs. subst s. vm_compute in Hn. discriminate.
    + destruct He as [(_ & [He|(b & q & He & _)])|(p & ps & clas & ss & del & s & He & _ & Hs & Hn)]; discriminate.
  - by apply elem_of_nil in Hs.
Qed.
Print Assumptions C25_served_only_if_handed_refuted.
(** It holds as long as no direct delivery of the bundle was attempted. *)
Theorem C25_served_only_if_handed_partial : forall cs p ps clas ss del n,
  epidemic (cs ++ [RSender p ps clas]) = epidemic cs ++ [(RSender p ps clas, Some (ss, del))] ->
  NoDup (map node_name ps) ->
  (forall d, eid_node (p_dst p) = Some d -> ~ reach_node ps clas d) ->
  reach_node ps clas n ->
  ~ since_failure (epidemic cs) (p_id p) n (fun e => received_from e (p_id p) n \/ handed e (p_id p) n) ->
  (forall p' ps' clas' ss', (RSender p' ps' clas', Some (ss', true)) ∈ epidemic cs -> p_id p' <> p_id p) ->
  exists s, s ∈ ss /\ node_or_empty (sd_hop s) = n.
Proof.
  intros cs p ps clas ss del n Hrun Hnd Hd (q & Hq & <- & Hr) Hns Hndd. unfold epidemic in Hrun. rewrite arun_app in Hrun. apply app_inv_head in Hrun.
  destruct (answered _ _ _ _ Hrun) as (h & h' & Hh & Hstep). cbn in Hstep.
  destruct (e_query clas p h ps []) as [[h2 [ss2 del2]]|] eqn:E; [|done]. injection Hstep as <- -> ->.
  pose proof (e_query_covers _ _ _ _ _ _ _ _ E) as Hcov. destruct del.
  { destruct Hcov as (q' & s & Hq' & Hf & Hd' & _). exfalso. apply (Hd (node_name q') Hd'). exists q'. rewrite reach_first. split; [done|]. split; [done|]. by eexists. }
  destruct Hcov as [_ Hcov]. rewrite reach_first in Hr. apply Hcov; [done|done|]. apply not_true_is_false. intros Hc. apply Hns.
  destruct (e_marked_handed cs h (p_id p) (node_name q) Hh Hc Hndd) as (l1 & e & l2 & Hl & He & Hf). exists l1, e, l2. split; [done|]. split; [|done].
  destruct He; [by right|by left].
Qed.
Print Assumptions C25_served_only_if_handed_partial.

(** A history in which a failed transfer is repeated, and nothing else. *)
Example C22_case :
  let q := RSender ex_pack [ex_p "a"; ex_p "b"] ex_c in
  map snd (epidemic [RNotify (IncomingNoPrev "dtn://src/-0-0" "c"); q; q; RNotify (SendingFailed "dtn://src/-0-0" "b"); q;
                     RSender ex_pack [ex_p "c"; ex_p "z"] ex_c]) =
  let to n := Sender 1 "10.0.0.1:16162" "mtcp" (Dtn n "") in
  [None; Some ([to "a"; to "b"], false); Some ([], false); None; Some ([to "b"], false); Some ([to "z"], true)].
Proof. vm_compute. reflexivity. Qed.

(** ** C26 *)
Theorem C26_flooding : forall cs p ps clas a,
  (RSender p ps clas, a) ∈ arun f_step (Some tt) cs -> NoDup (map node_name ps) ->
  exists ss, a = Some (ss, false) /\ NoDup (map (fun s => node_or_empty (sd_hop s)) ss) /\
    forall n, reach_node ps clas n <-> exists s, s ∈ ss /\ node_or_empty (sd_hop s) = n.
Proof.
  intros cs p ps clas a (l1 & l2 & Hrun)%elem_of_list_split Hnd.
  destruct (arun_split _ _ _ _ _ _ Hrun) as (c1 & c2 & -> & Hl1 & He1 & Hrest). cbn [fst] in *.
  assert (Hs : astate f_step (Some tt) c1 = Some tt). { clear. induction c1 as [|c c1 IH]; [done|]. cbn. by destruct c. }
  rewrite Hs in He1. cbn in He1. injection He1 as <-. exists (omap (first_cla clas) ps). split; [done|]. split.
  - clear -Hnd. induction ps as [|q ps IH]; [apply NoDup_nil_2|]. cbn [map] in Hnd. apply NoDup_cons in Hnd as [Hn Hnd]. cbn.
    destruct (first_cla clas q) as [s|] eqn:E; [|by apply IH]. cbn. apply NoDup_cons. split; [|by apply IH].
    intros (s' & He & (q' & Hq' & Hs')%elem_of_list_omap)%elem_of_list_fmap. apply Hn. apply elem_of_list_fmap. exists q'. split; [|done].
    rewrite <- (first_cla_name _ _ _ E), <- (first_cla_name _ _ _ Hs'). done.
  - intros n. split.
    + intros (q & Hq & <- & Hr). apply reach_first in Hr as [s Hs']. exists s. split; [apply elem_of_list_omap; eauto|]. apply (first_cla_name _ _ _ Hs').
    + intros (s & (q & Hq & Hs')%elem_of_list_omap & <-). exists q. rewrite reach_first. split; [done|]. split; [symmetry; apply (first_cla_name _ _ _ Hs')|by eexists].
Qed.
Print Assumptions C26_flooding.
Theorem C26_sink : forall cs p ps clas a,
  (RSender p ps clas, a) ∈ arun sink_step (Some tt) cs -> a = Some ([], false).
Proof.
  intros cs p ps clas a (l1 & l2 & Hrun)%elem_of_list_split.
  destruct (arun_split _ _ _ _ _ _ Hrun) as (c1 & c2 & -> & Hl1 & He1 & Hrest). cbn [fst] in *.
  assert (Hs : astate sink_step (Some tt) c1 = Some tt). { clear. induction c1 as [|c c1 IH]; [done|]. cbn. by destruct c. }
  rewrite Hs in He1. cbn in He1. by injection He1 as <-.
Qed.
Print Assumptions C26_sink.
Example C26_case :
  map snd (arun f_step (Some tt) [RSender ex_pack [ex_p "a"; ex_p "z"] ex_c; RSender ex_pack [ex_p "a"] []]) =
  [Some ([Sender 1 "10.0.0.1:16162" "mtcp" (Dtn "a" ""); Sender 1 "10.0.0.1:16162" "mtcp" (Dtn "z" "")], false); Some ([], false)] /\
  map snd (arun sink_step (Some tt) [RSender ex_pack [ex_p "a"; ex_p "z"] ex_c]) = [Some ([], false)].
Proof. vm_compute. done. Qed.
