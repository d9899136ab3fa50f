(** C170: the traffic of epidemic routing in a network (model: Network.v,
    Pipeline.v, Routing.v). *)
From stdpp Require Import prelude strings pretty gmap sorting.
From Coq Require Import NArith ZArith Lia ZifyBool ZifyN ZifyNat.
From Verif Require Import Core StoreMem Peers Routing Pipeline PipelineBase Props_Cause Network NetworkProofs NodeRouting NodeRoutingProofs Props_NodeRouting Props_Network Props_Route Props_RouteEpi.
Open Scope N_scope.

(** node and addressee of a successful transmission of bundle [id] *)
Definition sending (id : string) (e : netev) : option (nat * string) :=
  match e with
  | At x (EStep _ (LAct (Transfer s b) true)) => if decide (bid b = id) then Some (x, called s) else None
  | _ => None
  end.
Definition sendings (id : string) (tr : list netev) : list (nat * string) := omap (sending id) tr.

Lemma sendings_snoc id tr e : sendings id (tr ++ [e]) = sendings id tr ++ option_list (sending id e).
Proof. unfold sendings. by rewrite omap_app. Qed.
Lemma proj_snoc x tr e : proj x (tr ++ [e]) = proj x tr ++ at_node x e.
Proof. unfold proj. rewrite flat_map_app. cbn. by rewrite app_nil_r. Qed.
Lemma sendings_count id x n tr : N.of_nat (length (filter (fun k => k = (x, n)) (sendings id tr))) = number (transmitted true id n) (proj x tr).
Proof.
  induction tr as [|e tr IH] using rev_ind; [done|]. rewrite sendings_snoc, proj_snoc, filter_app, app_length, number_app, <- IH, Nat2N.inj_add. f_equal.
  destruct e as [k e|j k b'|j b'|j k b']; cbn; try (by destruct (decide (k = x))); try done.
  destruct e as [| | | | | |i [o r| |]]; try (by destruct (decide (k = x))). destruct o; try (by destruct (decide (k = x))).
  destruct (decide (k = x)) as [->|Hk].
  - rewrite number_cons. cbn [transmitted]. change (number (transmitted true id n) []) with 0. destruct r; [|done].
    destruct (decide (bid b = id)) as [Hb|Hb]; cbn [option_list].
    + rewrite (bool_decide_true (true = true)), (bool_decide_true (bid b = id)) by done. cbn [andb].
      destruct (decide (called s = n)) as [Hn|Hn].
      * rewrite (bool_decide_true (called s = n)) by done. change (option_list (Some (x, called s))) with [(x, called s)]. rewrite filter_cons_True by congruence. done.
      * rewrite (bool_decide_false (called s = n)) by done. change (option_list (Some (x, called s))) with [(x, called s)]. rewrite filter_cons_False by congruence. done.
    + rewrite (bool_decide_false (bid b = id)) by done. by rewrite andb_false_r.
  - change (number (transmitted true id n) []) with 0. destruct r; [|done]. destruct (decide (bid b = id)); [|done].
    change (option_list (Some (k, called s))) with [(k, called s)]. rewrite filter_cons_False by congruence. done.
Qed.
Lemma few_nodup {A} `{EqDecision A} (l : list A) : (forall k, (length (filter (fun y => y = k) l) <= 1)%nat) -> NoDup l.
Proof.
  induction l as [|x l IH]; intros H; [constructor|]. apply NoDup_cons. split.
  - intros Hx. specialize (H x). rewrite filter_cons_True in H by done. cbn in H.
    assert (Hin : x ∈ filter (fun y => y = x) l) by (by apply elem_of_list_filter). destruct (filter _ l); [by apply elem_of_nil in Hin|]. cbn in H. lia.
  - apply IH. intros k. specialize (H k). rewrite filter_cons in H. case_decide; cbn in H; lia.
Qed.

Section net.
Context (node_of : nat -> settings) (parse_record : list N -> option arecord)
        (lifetime_exceeded : N -> bundle -> bool).
Notation net_run := (net_run node_of parse_record lifetime_exceeded).

(** The nodes [xs] are those that ever transmit the bundle, all with epidemic
    routing, and [ns] the names of those it is transmitted to.  Then no node gets
    it from another one twice, and the network transmits it successfully at most
    [length xs] times [length ns] times, whatever fails and however often. *)
Theorem C170_traffic : forall tr ms id xs ns, net_run tr ms ->
  (forall x, x ∈ xs -> exists cs, joint (epidemic cs) (proj x tr)) ->
  (forall x i s b, does (proj x tr) i (Transfer s b) true -> bid b = id -> x ∈ xs /\ called s ∈ ns) ->
  NoDup (sendings id tr) /\ (length (sendings id tr) <= length xs * length ns)%nat.
Proof.
  intros tr ms id xs ns Hn Hep Hwho.
  assert (Hin : forall x n, (x, n) ∈ sendings id tr -> x ∈ xs /\ n ∈ ns).
  { intros x n H. apply elem_of_list_omap in H as (e & He & H). destruct e as [k [| | | | | |i [o r| |]]| | |]; try done. destruct o; try done. destruct r; [|done].
    cbn in H. case_decide; [|done]. injection H as <- <-. eapply (Hwho k i s b); [|done]. unfold does, proj. apply elem_of_list_In, in_flat_map.
    eexists. split; [by apply elem_of_list_In|]. cbn. rewrite decide_True by done. by left. }
  assert (Hnd : NoDup (sendings id tr)).
  { apply few_nodup. intros [x n]. destruct (decide (x ∈ xs)) as [Hx|Hx].
    - destruct (Hep x Hx) as [cs Hj]. pose proof (net_proj _ _ _ _ _ Hn x) as Hr.
      assert (H := epidemic_won _ _ _ _ _ _ _ _ id n Hr Hj). rewrite won_transmitted in H. assert (E := sendings_count id x n tr). lia.
    - destruct (filter _ _) as [|y l] eqn:E; [cbn; lia|]. assert (Hy : y ∈ y :: l) by left. rewrite <- E in Hy.
      apply elem_of_list_filter in Hy as [-> Hy]. by destruct (Hin x n Hy). }
  split; [done|]. rewrite <- (prod_length xs ns). apply NoDup_incl_length; [by apply NoDup_ListNoDup|].
  intros [x n] H. apply elem_of_list_In, Hin in H as [? ?]. apply in_prod; by apply elem_of_list_In.
Qed.
End net.
Print Assumptions C170_traffic.

(** The run of Props_RouteEpi.v: two transmissions fail, three succeed. *)
Example C170_case :
  net_run line (fun _ => None) (fun _ _ => false) (fst run162) (snd run162) /\
  (exists cs, joint (epidemic cs) (proj 0 (fst run162))) /\ (exists cs, joint (epidemic cs) (proj 1 (fst run162))) /\
  sendings (bid mail) (fst run162) = [(0%nat, "z"); (0%nat, "n1"); (1%nat, "n2")].
Proof.
  split; [exact run162_ok|]. split; [|split].
  - exists (map fst (annotate near0 (proj 0 (fst run162)))). rewrite heard0_agent. apply annotate_joint.
  - exists (map fst (annotate near1 (proj 1 (fst run162)))). rewrite heard1_agent. apply annotate_joint.
  - vm_compute. reflexivity.
Qed.
