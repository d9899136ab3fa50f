(** C27, C28, C60: spray and wait (model: Routing.v). *)
From Verif Require Import Core Peers PeersProofs Routing RoutingProofs IdProofs SawProofs.
From stdpp Require Import prelude strings pretty gmap.
From Coq Require Import NArith Lia.
Open Scope N_scope.

(** ** Vocabulary *)
(** the history of an agent started empty: commands with answers *)
Definition sprayed (cf : saw_conf) (cs : list rcmd) : list (rcmd * option answer) := arun (saw_step cf) (Some ∅) cs.
(** the node learns about bundle [b] *)
Definition announced (b : bundle) (c : rcmd) : Prop :=
  c = RNotify (IncomingBundle b) \/ exists n, c = RNotify (IncomingNoPrev (bid b) n).
(** any announcement of a bundle with that id *)
Definition announcement (id : string) (c : rcmd) : Prop :=
  match c with RNotify (IncomingBundle b) => bid b = id | RNotify (IncomingNoPrev i _) => i = id | _ => False end.
Definition failed (id : string) (c : rcmd) : bool :=
  match c with RNotify (SendingFailed i _) => bool_decide (i = id) | _ => false end.
(** the nodes an event hands the bundle to as a relay (the bundle is kept) *)
Definition relayed (id : string) (e : rcmd * option answer) : list sender :=
  match e with
  | (RSender p _ _, Some (ss, false)) => if decide (p_id p = id) then ss else []
  | _ => []
  end.
Definition all_relayed (id : string) (l : list (rcmd * option answer)) : list sender := concat (map (relayed id) l).

(** ** C27 *)
Theorem C27_copy_budget : forall cf host b cs1 c cs2,
  wf_eid host -> eid_node_id host = Some (sc_local cf) -> wf_eid (b_src b) ->
  announced b c ->
  (forall x, x ∈ cs1 ++ cs2 -> ~ announcement (bid b) x) ->
  (forall x, x ∈ cs2 -> failed (bid b) x = false) ->
  let R := all_relayed (bid b) (sprayed cf (cs1 ++ c :: cs2)) in
  (** own bundles at most L-1 times, foreign ones not at all, no node twice *)
  N.of_nat (length R) <= sc_l cf - 1 /\
  (eid_node_id (b_src b) <> Some (sc_local cf) -> R = []) /\
  NoDup (map (fun s => eid_node_id (sd_hop s)) R).
Proof.
  intros cf host b cs1 c cs2 Hw Hh Hs Hc Hna Hnf R.
  assert (Hann : announces c (bid b)) by (destruct Hc as [->|[n ->]]; done).
  assert (Hcf : count_failures (bid b) cs2 = 0).
  { clear -Hnf. induction cs2 as [|x cs IH]; [done|]. pose proof (Hnf x (elem_of_list_here _ _)) as Hx.
    assert (IH' : count_failures (bid b) cs = 0) by (apply IH; intros y Hy; apply Hnf; by apply elem_of_list_further).
    destruct x as [|[i n| | | | |]|]; cbn; try done. cbn in Hx. apply bool_decide_eq_false in Hx. by rewrite decide_False. }
  destruct (saw_once cf (bid b) cs1 c cs2 Hann Hna) as [H1 H2]. cbv zeta in H1, H2.
  change (relays (bid b) (arun (saw_step cf) (Some ∅) (cs1 ++ c :: cs2))) with R in *. rewrite Hcf in H1.
  destruct (String.prefix (sc_local cf) (bid b)) eqn:E.
  - split; [lia|]. split; [|by apply H2]. intros Hne. exfalso. apply Hne. exact (own_prefix host b _ Hw Hs Hh E).
  - assert (HR : R = []) by (destruct R; [done|cbn in H1; lia]). rewrite HR. split; [cbn; lia|]. split; [done|]. apply NoDup_nil_2.
Qed.
Print Assumptions C27_copy_budget.
(** In every history: the bundle is never handed to the node itself, only to
    reachable peers, and a bundle that is to be removed is handed to its
    destination only. *)
Theorem C27_answers : forall cf cs p ps clas ss del,
  (RSender p ps clas, Some (ss, del)) ∈ sprayed cf cs ->
  (forall s, s ∈ ss -> eid_node_id (sd_hop s) <> Some (sc_local cf) /\
     exists q want c, q ∈ ps /\ sd_hop s = pe_eid q /\ want ∈ pe_clas q /\ c ∈ clas /\ cl_name c = fst want /\ cl_accepting c = true) /\
  (del = true -> exists s, ss = [s] /\ eid_node (p_dst p) = Some (node_or_empty (sd_hop s))).
Proof.
  intros cf cs p ps clas ss del H. destruct (saw_answer _ _ _ _ _ _ _ H) as [H1 H2]. split; [|done].
  intros s Hs. destruct (H1 s Hs) as (q & Hq & Hf & Hn). split; [done|].
  destruct (proj1 (first_cla_serves clas q)) as (want & c & ? & ? & ? & ?); [by eexists|]. exists q, want, c.
  split; [done|]. split; [apply (first_cla_hop _ _ _ Hf)|done].
Qed.
Print Assumptions C27_answers.

Definition ex_n (name : string) : peer := Peer (Dtn name "") (AIp "10.0.0.1") false None [("mtcp", Some 16162)] [] 0 0.
Definition ex_m : list cla := [Cla 1 "mtcp" true 16162].
Definition ex_b : bundle :=
  Bundle (BFlags false false false false false false false) (Dtn "z" "in") (Dtn "me" "app") DtnNone 7 0 1000 0 0 [].
Definition ex_q (b : bundle) (names : list string) : rcmd := RSender (pack_of 0 b) (map ex_n names) ex_m.
Definition ex_to (n : string) : sender := Sender 1 "10.0.0.1:16162" "mtcp" (Dtn n "").
Example C27_case :
  let cf := SawConf 3 "dtn://me/" in
  map snd (sprayed cf [RNotify (IncomingBundle ex_b); ex_q ex_b ["a"]; ex_q ex_b ["a"; "b"; "me"; "c"]; ex_q ex_b ["c"; "z"]]) =
    [None; Some ([ex_to "a"], false); Some ([ex_to "b"], false); Some ([ex_to "z"], true)] /\
  eid_node_id (Dtn "me" "") = Some (sc_local cf).
Proof. vm_compute. done. Qed.

(** ** C28 *)
(** Failure reports that answer a hand-out: each one is for a node the bundle
    was handed to and not reported for since. *)
Definition honest (id : string) (l : list (rcmd * option answer)) : Prop :=
  forall l1 n a l2, l = l1 ++ (RNotify (SendingFailed id n), a) :: l2 ->
    exists k1 p ps clas ss del s k2, l1 = k1 ++ (RSender p ps clas, Some (ss, del)) :: k2 /\ p_id p = id /\
      s ∈ ss /\ node_or_empty (sd_hop s) = n /\ forall x, x ∈ k2 -> fst x <> RNotify (SendingFailed id n).
Definition reported_node (id n : string) (c : rcmd) : bool :=
  match c with RNotify (SendingFailed i m) => bool_decide (i = id) && bool_decide (m = n) | _ => false end.
(** (a) the failed node becomes eligible again *)
Definition C28_full_retry : Prop := forall cf b cs n,
  String.prefix (sc_local cf) (bid b) = true -> 2 <= sc_l cf ->
  let h := RNotify (IncomingBundle b) :: cs ++ [RNotify (SendingFailed (bid b) n)] in
  (forall x, x ∈ cs -> ~ announcement (bid b) x) -> honest (bid b) (sprayed cf h) ->
  (** [n] is the only node a transfer to which failed, and the only one around *)
  (forall x i, x ∈ cs -> x <> RNotify (SendingFailed (bid b) i)) ->
  exists q ss del, sprayed cf (h ++ [ex_q b [n]]) = q ++ [(ex_q b [n], Some (ss, del))] /\ ex_to n ∈ ss.
(** (b) and only it: a node that got its copy does not get another one *)
Definition C28_full_others : Prop := forall cf b cs,
  (forall x, x ∈ cs -> ~ announcement (bid b) x) ->
  let l := sprayed cf (RNotify (IncomingBundle b) :: cs) in
  honest (bid b) l ->
  forall l1 e1 l2 e2 l3 s1 s2, l = l1 ++ e1 :: l2 ++ e2 :: l3 -> s1 ∈ relayed (bid b) e1 -> s2 ∈ relayed (bid b) e2 ->
    sd_hop s1 = sd_hop s2 ->
    exists x, x ∈ l2 /\ fst x = RNotify (SendingFailed (bid b) (node_or_empty (sd_hop s1))).
(** (c) relayed copies that did not fail never exceed L-1 *)
Definition C28_full_budget : Prop := forall cf b cs,
  (forall x, x ∈ cs -> ~ announcement (bid b) x) ->
  let l := sprayed cf (RNotify (IncomingBundle b) :: cs) in
  honest (bid b) l ->
  let ok := List.filter (fun s => negb (existsb (fun x => reported_node (bid b) (node_or_empty (sd_hop s)) (fst x)) l)) (all_relayed (bid b) l) in
  N.of_nat (length ok) <= sc_l cf - 1.

(** Two relays a and b; the transfer to a fails.  a is not offered the bundle
    again, b gets it a second time. *)
Lemma honest_two cs id n l0 a l1 :
  sprayed (SawConf 3 "dtn://me/") cs = l0 ++ (RNotify (SendingFailed id n), a) :: l1 ->
  (forall x, x ∈ l0 ++ l1 -> forall i, fst x <> RNotify (SendingFailed id i)) ->
  (exists k1 p ps clas ss del s k2, l0 = k1 ++ (RSender p ps clas, Some (ss, del)) :: k2 /\ p_id p = id /\ s ∈ ss /\ node_or_empty (sd_hop s) = n) ->
  honest id (sprayed (SawConf 3 "dtn://me/") cs).
Proof.
  intros -> Hno (k1 & p & ps & clas & ss & del & s & k2 & Hk & Hp & Hs & Hn) m1 i b m2 Heq.
  assert (Hl : length m1 = length l0).
  { destruct (lt_eq_lt_dec (length m1) (length l0)) as [[Hlt|?]|Hgt]; [|done|].
    - exfalso. assert (Hin : (RNotify (SendingFailed id i), b) ∈ l0).
      { assert (E : (l0 ++ (RNotify (SendingFailed id n), a) :: l1) !! length m1 = Some (RNotify (SendingFailed id i), b)) by (rewrite Heq; by apply list_lookup_middle).
        rewrite lookup_app_l in E by done. by eapply elem_of_list_lookup_2. }
      eapply (Hno _ (proj2 (elem_of_app _ _ _) (or_introl Hin))). reflexivity.
    - exfalso. assert (Hin : (RNotify (SendingFailed id i), b) ∈ l1).
      { assert (E : (l0 ++ (RNotify (SendingFailed id n), a) :: l1) !! length m1 = Some (RNotify (SendingFailed id i), b)) by (rewrite Heq; by apply list_lookup_middle).
        rewrite lookup_app_r in E by lia. destruct (length m1 - length l0)%nat eqn:Ed; [lia|]. cbn in E. by eapply elem_of_list_lookup_2. }
      eapply (Hno _ (proj2 (elem_of_app _ _ _) (or_intror Hin))). reflexivity. }
  apply app_inj_1 in Heq as [<- Heq]; [|done]. injection Heq as <- <- <-.
  exists k1, p, ps, clas, ss, del, s, k2. do 4 (split; [done|]). intros x Hx. apply Hno, elem_of_app. left. rewrite Hk. apply elem_of_app. right. by apply elem_of_list_further.
Qed.
Theorem C28_failed_node_retried_refuted : ~ C28_full_retry.
Proof.
  intros H. destruct (H (SawConf 3 "dtn://me/") ex_b [ex_q ex_b ["a"; "b"]] "a") as (q & ss & del & Hq & Hin).
  - vm_compute. reflexivity.
  - cbn. lia.
  - intros x ->%elem_of_list_singleton. cbn. tauto.
  - eapply (honest_two _ _ "a" [_; _] _ []); [vm_compute; reflexivity| |].
    + intros x [->|[->|?%elem_of_nil]%elem_of_cons]%elem_of_cons i; done.
    + eexists [_], _, _, _, _, _, _, []. split; [reflexivity|]. split; [vm_compute; reflexivity|]. split; [apply elem_of_list_here|]. vm_compute. reflexivity.
  - intros x i ->%elem_of_list_singleton. done.
  - change (sprayed (SawConf 3 "dtn://me/") (((RNotify (IncomingBundle ex_b) :: [ex_q ex_b ["a"; "b"]] ++ [RNotify (SendingFailed (bid ex_b) "a")])) ++ [ex_q ex_b ["a"]]))
      with (sprayed (SawConf 3 "dtn://me/") [RNotify (IncomingBundle ex_b); ex_q ex_b ["a"; "b"]; RNotify (SendingFailed (bid ex_b) "a"); ex_q ex_b ["a"]]) in Hq.
    assert (Hs : last (sprayed (SawConf 3 "dtn://me/") [RNotify (IncomingBundle ex_b); ex_q ex_b ["a"; "b"]; RNotify (SendingFailed (bid ex_b) "a"); ex_q ex_b ["a"]])
              = Some (ex_q ex_b ["a"], Some ([], false))) by (vm_compute; reflexivity).
    rewrite Hq, last_snoc in Hs. injection Hs as -> ->. by apply elem_of_nil in Hin.
Qed.
Print Assumptions C28_failed_node_retried_refuted.
Theorem C28_other_nodes_unaffected_refuted : ~ C28_full_others.
Proof.
  intros H.
  pose (cs := [ex_q ex_b ["a"; "b"]; RNotify (SendingFailed (bid ex_b) "a"); ex_q ex_b ["b"]]).
  specialize (H (SawConf 3 "dtn://me/") ex_b cs). cbv zeta in H.
  destruct (H ltac:(intros x Hx; subst cs; repeat (apply elem_of_cons in Hx as [->|Hx]; [cbn; tauto|]); by apply elem_of_nil in Hx)
     ltac:(eapply (honest_two _ _ "a" [_; _] _ [_]); [vm_compute; reflexivity|
       intros x Hx i; cbn [app] in Hx; repeat (apply elem_of_cons in Hx as [->|Hx]; [done|]); by apply elem_of_nil in Hx|
       eexists [_], _, _, _, _, _, _, []; (split; [reflexivity|]); (split; [vm_compute; reflexivity|]); (split; [apply elem_of_list_here|]); vm_compute; reflexivity])
     [(RNotify (IncomingBundle ex_b), None)] (ex_q ex_b ["a"; "b"], Some ([ex_to "a"; ex_to "b"], false))
     [(RNotify (SendingFailed (bid ex_b) "a"), None)] (ex_q ex_b ["b"], Some ([ex_to "b"], false)) [] (ex_to "b") (ex_to "b"))
    as (x & Hx & Hf).
  - vm_compute. reflexivity.
  - unfold relayed, ex_q. rewrite decide_True by done. apply elem_of_list_further, elem_of_list_here.
  - unfold relayed, ex_q. rewrite decide_True by done. apply elem_of_list_here.
  - done.
  - apply elem_of_list_singleton in Hx as ->. vm_compute in Hf. discriminate.
Qed.
Print Assumptions C28_other_nodes_unaffected_refuted.
(** A failed direct delivery adds a copy nobody had taken from the budget. *)
Theorem C28_budget_refuted : ~ C28_full_budget.
Proof.
  intros H.
  pose (cs := [ex_q ex_b ["a"; "b"]; ex_q ex_b ["z"]; RNotify (SendingFailed (bid ex_b) "z"); ex_q ex_b ["c"]]).
  specialize (H (SawConf 3 "dtn://me/") ex_b cs). cbv zeta in H.
  assert (Hb : N.of_nat 3 <= 2); [|lia].
  etransitivity; [|refine (H _ _)].
  - vm_compute. discriminate.
  - intros x Hx. subst cs. repeat (apply elem_of_cons in Hx as [->|Hx]; [cbn; tauto|]). by apply elem_of_nil in Hx.
  - eapply (honest_two _ _ "z" [_; _; _] _ [_]); [vm_compute; reflexivity| |].
    + intros x Hx i. cbn [app] in Hx. repeat (apply elem_of_cons in Hx as [->|Hx]; [done|]). by apply elem_of_nil in Hx.
    + eexists [_; _], _, _, _, _, _, _, []. split; [reflexivity|]. split; [vm_compute; reflexivity|]. split; [apply elem_of_list_here|]. vm_compute. reflexivity.
Qed.
Print Assumptions C28_budget_refuted.
(** What does hold: every failure report adds at most one copy. *)
Theorem C28_failures_partial : forall cf b cs,
  (forall x, x ∈ cs -> ~ announcement (bid b) x) ->
  let l := sprayed cf (RNotify (IncomingBundle b) :: cs) in
  N.of_nat (length (all_relayed (bid b) l)) <=
    (if String.prefix (sc_local cf) (bid b) then sc_l cf - 1 else 0) + N.of_nat (length (filter (fun x => failed (bid b) x = true) cs)).
Proof.
  intros cf b cs Hna l. destruct (saw_once cf (bid b) [] (RNotify (IncomingBundle b)) cs eq_refl Hna) as [H1 _]. cbv zeta in H1. cbn [app] in H1.
  change (relays _ _) with (all_relayed (bid b) l) in H1.
  assert (Hcnt : count_failures (bid b) cs = N.of_nat (length (filter (fun x => failed (bid b) x = true) cs))).
  { clear. induction cs as [|x cs IH]; [done|]. rewrite filter_cons. destruct x as [|[i n| | | | |]|]; try exact IH.
    cbn [count_failures failed]. destruct (decide (i = bid b)) as [->|Hne].
    - rewrite decide_True by (by apply bool_decide_true). cbn [length]. rewrite IH. lia.
    - rewrite decide_False by (by rewrite bool_decide_false). exact IH. }
  rewrite Hcnt in H1. destruct (String.prefix _ _); lia.
Qed.
Print Assumptions C28_failures_partial.

(** ** C60 *)
(** A bundle created on this node is given to every reachable peer at the
    first query if the budget suffices. *)
Definition C60_full : Prop := forall host cf b p ps clas,
  wf_eid host -> eid_node_id host = Some (sc_local cf) -> eid_node_id (b_src b) = eid_node_id host ->
  p_id p = bid b ->
  (forall q, q ∈ ps -> pe_eid q <> DtnNone /\ eid_node_id (pe_eid q) <> eid_node_id host) ->
  NoDup (map (fun q => eid_node_id (pe_eid q)) ps) -> N.of_nat (length ps) < sc_l cf ->
  sprayed cf [RNotify (IncomingBundle b); RSender p ps clas] =
    [(RNotify (IncomingBundle b), None); (RSender p ps clas, Some (omap (first_cla clas) ps, false))].
(** On an ipn node only bundles of service 0 are recognised as own. *)
Theorem C60_own_bundles_sprayed_refuted : ~ C60_full.
Proof.
  intros H.
  pose (b := Bundle (BFlags false false false false false false false) (Dtn "z" "in") (Ipn 1 5) DtnNone 7 0 1000 0 0 []).
  specialize (H (Ipn 1 0) (SawConf 7 "ipn:1.0") b (pack_of 0 b) [ex_n "a"] ex_m I eq_refl eq_refl eq_refl).
  assert (Heq : sprayed (SawConf 7 "ipn:1.0") [RNotify (IncomingBundle b); RSender (pack_of 0 b) [ex_n "a"] ex_m] =
    [(RNotify (IncomingBundle b), None); (RSender (pack_of 0 b) [ex_n "a"] ex_m, Some (omap (first_cla ex_m) [ex_n "a"], false))]).
  { apply H; [|apply NoDup_singleton|cbn; lia]. intros q ->%elem_of_list_singleton. done. }
  vm_compute in Heq. discriminate.
Qed.
Print Assumptions C60_own_bundles_sprayed_refuted.
Theorem C60_own_bundles_sprayed_partial : forall n sv svc cf b p ps clas,
  eid_node_id (Dtn n sv) = Some (sc_local cf) -> b_src b = Dtn n svc ->
  p_id p = bid b ->
  (forall q, q ∈ ps -> pe_eid q <> DtnNone /\ eid_node_id (pe_eid q) <> eid_node_id (Dtn n sv)) ->
  NoDup (map (fun q => eid_node_id (pe_eid q)) ps) -> N.of_nat (length ps) < sc_l cf ->
  sprayed cf [RNotify (IncomingBundle b); RSender p ps clas] =
    [(RNotify (IncomingBundle b), None); (RSender p ps clas, Some (omap (first_cla clas) ps, false))].
Proof.
  intros n sv svc cf b p ps clas Hh Hs Hp Hq Hnd Hl. unfold sprayed. cbn [arun mbind option_bind saw_step saw_notify]. unfold saw_new.
  rewrite (own_prefix_dtn n sv svc (sc_local cf) b Hh Hs), Hp, lookup_insert.
  destruct (saw_query_all cf clas p ps (SawData (sc_l cf) []) []) as [d' Hd']; [|done|done|by rewrite Hd'].
  intros q Hin. destruct (Hq q Hin) as [Hn Hne]. destruct (eid_node_id (pe_eid q)) as [nid|] eqn:E; [|by destruct (pe_eid q)].
  exists nid. split; [done|]. split; [congruence|]. by intros ?%elem_of_nil.
Qed.
Print Assumptions C60_own_bundles_sprayed_partial.
Example C60_case :
  map snd (sprayed (SawConf 4 "dtn://me/") [RNotify (IncomingBundle ex_b); ex_q ex_b ["a"; "b"; "c"]]) = [None; Some ([ex_to "a"; ex_to "b"; ex_to "c"], false)].
Proof. vm_compute. reflexivity. Qed.
