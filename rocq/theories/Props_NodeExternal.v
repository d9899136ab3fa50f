(** C166: a node with external routing transmits what the routing program names
    (model: NodeExternal.v, Pipeline.v, External.v). *)
From stdpp Require Import prelude strings pretty gmap sorting.
From Coq Require Import NArith ZArith Lia ZifyBool ZifyN ZifyNat.
From Verif Require Import Core StoreMem Peers PeersProofs Routing External IdProofs ExternalProofs Props_External Pipeline PipelineBase PipelineProofs PipelineInv PipelineCount PipelineRun NodeRouting NodeRoutingProofs NodeRoutingBack Props_NodeRouting NodeHops NodeExternal.
Open Scope N_scope.

(** ** Specification *)
(** how often the answer [r] names node [n], if it is for bundle [id] *)
Definition names (id n : string) (r : response) : nat :=
  if decide (p_id (rs_pack r) = id) then length (filter (fun i => match eid_node (in_hop i) with Some x => x | None => "" end = n) (rs_clas r)) else 0%nat.
(** the same for all answers the routing program sent *)
Definition named_in (id n : string) (es : list xev) : nat :=
  sum_list_with (fun e => match e with XRespond r _ => names id n r | _ => 0%nat end) es.

(** ** Proofs *)
Lemma asked_queries es : asked es = queries es.
Proof. done. Qed.
(** a call that has returned stays so *)
Lemma done_step st e n q a : x_req st !! n = Some q -> rq_st q = Done a -> exists q', x_req (xstep st e) !! n = Some q' /\ rq_st q' = Done a /\ rq_pack q' = rq_pack q.
Proof.
  intros Hq Hst.
  assert (Hd : forall k, exists q', x_req (drop_key k st) !! n = Some q' /\ rq_st q' = Done a /\ rq_pack q' = rq_pack q).
  { intros k. destruct (req_drop_ex k st n q Hq) as [q' Hq']. exists q'. split; [done|].
    destruct (req_drop _ _ _ _ Hq') as (q0 & Hq0 & _ & Hcc). rewrite Hq in Hq0. injection Hq0 as <-. destruct Hcc as [->|(_ & Hw & _)]; [done|congruence]. }
  assert (Hu : forall m s st', (exists q', x_req st' !! n = Some q' /\ rq_st q' = Done a /\ rq_pack q' = rq_pack q) -> m <> n ->
     exists q', External.upd m s (x_req st') !! n = Some q' /\ rq_st q' = Done a /\ rq_pack q' = rq_pack q).
  { intros m s st' (q' & Hq' & Hs') Hne. exists q'. unfold External.upd. rewrite list_lookup_alter_ne by done. done. }
  assert (Hself : exists q', x_req st !! n = Some q' /\ rq_st q' = Done a /\ rq_pack q' = rq_pack q) by (by exists q).
  destruct e as [| |p ord|r ord|m clas|m]; cbn [xstep]; try done.
  - destruct (x_conn st); cbn [x_req].
    + destruct (Hd (describe (p_id p) ord)) as (q' & Hq' & ?). exists q'. split; [|done]. by apply lookup_app_l_Some.
    + exists q. split; [|done]. by apply lookup_app_l_Some.
  - destruct (x_conn st); [|done]. destruct (x_resp st !! _) as [m|]; [|done]. cbn [x_req].
    destruct (decide (m = n)) as [->|Hne]; [|by rewrite list_lookup_alter_ne by done].
    rewrite list_lookup_alter, Hq. cbn. rewrite Hst. by exists q.
  - destruct (x_req st !! m) as [q1|] eqn:Em; [|done].
    assert (Hmn : (forall a', rq_st q1 <> Done a') -> m <> n) by (intros Hx ->; rewrite Hq in Em; injection Em as <-; by eapply Hx).
    destruct (rq_st q1) eqn:E1; try done; cbn [x_req]; apply Hu; [apply Hd|by apply Hmn|apply Hd|by apply Hmn].
  - destruct (x_req st !! m) as [q1|] eqn:Em; [|done].
    assert (Hmn : (forall a', rq_st q1 <> Done a') -> m <> n) by (intros Hx ->; rewrite Hq in Em; injection Em as <-; by eapply Hx).
    destruct (rq_st q1) eqn:E1; try done. cbn [x_req]. apply Hu; [apply Hd|by apply Hmn].
Qed.

(** ** each answer is used for one query *)
Section weights.
Context (id n : string).
Definition given (a : answer) : nat := length (filter (fun s => node_or_empty (sd_hop s) = n) (fst a)).
Definition holds (q : request) : nat :=
  match rq_st q with
  | Got r _ => names id n r
  | Done a => if decide (p_id (rq_pack q) = id) then given a else 0%nat
  | _ => 0%nat
  end.
Definition all_hold (l : list request) : nat := sum_list_with holds l.
Lemma hold_alter f k l c : (forall q, l !! k = Some q -> (holds (f q) <= holds q + c)%nat) -> (all_hold (alter f k l) <= all_hold l + c)%nat.
Proof.
  unfold all_hold. revert k. induction l as [|q l IH]; intros [|k] H; cbn; try lia.
  - specialize (H q eq_refl). lia.
  - specialize (IH k H). change (holds q + sum_list_with holds (alter f k l) <= holds q + sum_list_with holds l + c)%nat. lia.
Qed.
Lemma hold_drop k st : (all_hold (x_req (drop_key k st)) <= all_hold (x_req st))%nat.
Proof.
  unfold drop_key. destruct (x_resp st !! k) as [m|]; [|done]. cbn. unfold close. rewrite <- (Nat.add_0_r (all_hold (x_req st))). apply hold_alter.
  intros q _. unfold holds. destruct (rq_st q) eqn:E; cbn; rewrite ?E; lia.
Qed.
Lemma unpack_given clas l : (length (filter (fun s => node_or_empty (sd_hop s) = n) (omap (unpack_one clas) l)) <=
  length (filter (fun i => match eid_node (in_hop i) with Some x => x | None => "" end = n) l))%nat.
Proof.
  induction l as [|i l IH]; [done|]. cbn [omap list_omap]. rewrite (filter_cons _ i). destruct (unpack_one clas i) as [s|] eqn:E.
  - assert (Hh : sd_hop s = in_hop i).
    { unfold unpack_one in E. apply first_some_Some in E as (j & c & _ & Hf & _). case_bool_decide; [|done]. by injection Hf as <-. }
    rewrite filter_cons. unfold node_or_empty at 1. rewrite Hh. destruct (decide _); cbn [length]; unfold node_or_empty in *; lia.
  - destruct (decide _); cbn [length]; lia.
Qed.
Lemma hold_step st e : (all_hold (x_req (xstep st e)) <= all_hold (x_req st) + match e with XRespond r _ => names id n r | _ => 0 end)%nat.
Proof.
  destruct e as [| |p ord|r ord|k clas|k]; cbn [xstep].
  - cbn [x_req]. lia.
  - cbn [x_req]. lia.
  - unfold all_hold. destruct (x_conn st); cbv zeta; cbn [x_req]; rewrite sum_list_with_app; cbn [sum_list_with]; unfold holds at 2; cbn.
    + pose proof (hold_drop (describe (p_id p) ord) st). unfold all_hold in *. lia.
    + destruct (decide _); cbn; lia.
  - destruct (x_conn st); [|cbn; lia]. destruct (x_resp st !! _); [|cbn; lia]. cbn [x_req]. apply hold_alter. intros q _.
    destruct (rq_st q) eqn:E; unfold holds; cbn; rewrite ?E; lia.
  - destruct (x_req st !! k) as [q|] eqn:Eq; [|lia]. destruct (rq_st q) as [|r ord| |] eqn:Es; try lia; cbn [x_req].
    + etransitivity; [apply (hold_alter _ _ _ 0)|pose proof (hold_drop (rq_key q) st); lia].
      intros q1 Hq1. destruct (req_drop _ _ _ _ Hq1) as (q0 & Hq0 & _ & Hc). rewrite Eq in Hq0. injection Hq0 as <-.
      destruct Hc as [->|(_ & Hw & _)]; [|congruence]. unfold holds. rewrite Es. cbn. case_bool_decide as Ed.
      * unfold rq_key in Ed. apply describe_inj in Ed as [Ed _]. unfold names. rewrite Ed. destruct (decide _); [|lia].
        unfold given, unpack. cbn [fst]. pose proof (unpack_given clas (rs_clas r)). lia.
      * destruct (decide _); cbn; lia.
    + etransitivity; [apply (hold_alter _ _ _ 0)|pose proof (hold_drop (rq_key q) st); lia]. intros q1 _. unfold holds at 1. cbn. destruct (decide _); cbn; lia.
  - destruct (x_req st !! k) as [q|] eqn:Eq; [|lia]. destruct (rq_st q) eqn:Es; try lia; cbn [x_req].
    etransitivity; [apply (hold_alter _ _ _ 0)|pose proof (hold_drop (rq_key q) st); lia]. intros q1 _. unfold holds at 1. cbn. destruct (decide _); cbn; lia.
Qed.
Lemma hold_run es : (all_hold (x_req (xrun es)) <= named_in id n es)%nat.
Proof.
  induction es as [|e es IH] using rev_ind; [done|]. rewrite xrun_snoc. pose proof (hold_step (xrun es) e) as H. unfold named_in in *.
  rewrite sum_list_with_app. cbn [sum_list_with]. lia.
Qed.
(** what the answered calls hold *)
Definition hold_at (l : list request) (k : nat) : nat :=
  match l !! k with Some q => match rq_st q with Done _ => holds q | _ => 0%nat end | None => 0%nat end.
Lemma hold_some l ns : NoDup ns -> (sum_list_with (hold_at l) ns <= all_hold l)%nat.
Proof.
  revert ns. induction l as [|q l IH] using rev_ind; intros ns Hn.
  { assert (forall k, hold_at [] k = 0%nat) by (by intros []). clear Hn. induction ns as [|k ns IHn]; [done|]. cbn. rewrite H. exact IHn. }
  unfold all_hold. rewrite sum_list_with_app. cbn [sum_list_with]. fold (all_hold l).
  assert (Ho : forall k, k <> length l -> hold_at (l ++ [q]) k = hold_at l k).
  { intros k Hk. unfold hold_at. destruct (decide (k < length l)%nat) as [Hlt|Hge]; [by rewrite lookup_app_l|].
    rewrite (lookup_ge_None_2 (l ++ [q])), (lookup_ge_None_2 l); [done|lia|rewrite app_length; cbn; lia]. }
  assert (Hz : forall ms, length l ∉ ms -> sum_list_with (hold_at (l ++ [q])) ms = sum_list_with (hold_at l) ms).
  { intros ms. induction ms as [|k ms IHm]; intros Hk; [done|]. cbn. rewrite Ho, IHm; [done|..]; intros ?; apply Hk; [by right|subst; left]. }
  destruct (decide (length l ∈ ns)) as [Hin|Hnin]; [|rewrite Hz by done; specialize (IH ns Hn); lia].
  apply elem_of_list_split in Hin as (n1 & n2 & ->). rewrite sum_list_with_app. cbn [sum_list_with].
  apply NoDup_app in Hn as (Hn1 & Hd & Hn2). apply NoDup_cons in Hn2 as [Hx Hn2].
  assert (H1 : length l ∉ n1) by (intros H; apply (Hd _ H); left).
  rewrite !Hz by done. assert (HN : NoDup (n1 ++ n2)).
  { apply NoDup_app. split; [done|]. split; [|done]. intros k Hk Hk'. apply (Hd k Hk). by right. }
  specialize (IH _ HN). rewrite sum_list_with_app in IH.
  assert (hold_at (l ++ [q]) (length l) <= holds q)%nat; [|lia]. unfold hold_at. rewrite list_lookup_middle by done. destruct (rq_st q); lia.
Qed.
(** the answers to the tasks *)
Definition grant (l : label) : Z :=
  match l with
  | LAct o r => match o return resp o -> Z with
                | Route p => fun a => match a with Some (ss, _) => hits (just id n) (p_id p) ss | None => 0%Z end
                | _ => fun _ => 0%Z end r
  | _ => 0%Z
  end.
Lemma hits_given i ss d : hits (just id n) i ss = Z.of_nat (if decide (i = id) then given (ss, d) else 0%nat).
Proof.
  unfold given. cbn [fst]. induction ss as [|s ss IH]; [by destruct (decide _)|].
  change (hits (just id n) i (s :: ss)) with (ind (just id n i (node_or_empty (sd_hop s))) + hits (just id n) i ss)%Z.
  rewrite IH, filter_cons. unfold just. destruct (decide (i = id)) as [->|Hi].
  - rewrite bool_decide_true by done. cbn [andb]. destruct (decide (node_or_empty (sd_hop s) = n)) as [H|H].
    + rewrite bool_decide_true by done. cbn [ind length]. lia.
    + rewrite bool_decide_false by done. cbn [ind]. lia.
  - rewrite bool_decide_false by done. cbn. lia.
Qed.
Lemma xjoint_grants es tr ns : xjoint es tr ns -> NoDup ns /\
  (forall k, k ∈ ns -> exists q a, x_req (xrun es) !! k = Some q /\ rq_st q = Done a) /\
  wsum grant tr = Z.of_nat (sum_list_with (hold_at (x_req (xrun es))) ns).
Proof.
  induction 1 as [|es tr ns e _ (H1 & H2 & H3)|es tr ns i k p q a _ (H1 & H2 & H3) Hk Hp Hq Ha|es tr ns e _ (H1 & H2 & H3) He].
  - split; [constructor|]. split; [by intros k ?%elem_of_nil|done].
  - rewrite xrun_snoc. split; [done|]. split.
    + intros k Hk. destruct (H2 k Hk) as (q & a & Hq & Ha). destruct (done_step _ e _ _ _ Hq Ha) as (q' & ? & ? & _). eauto.
    + rewrite H3. f_equal. clear H1 H3. induction ns as [|k ns IH]; [done|]. cbn [sum_list_with]. rewrite IH by (intros k' Hk'; apply H2; by right). f_equal.
      destruct (H2 k) as (q & a & Hq & Ha); [left|]. destruct (done_step _ e _ _ _ Hq Ha) as (q' & Hq' & Ha' & Hp').
      unfold hold_at, holds. by rewrite Hq, Hq', Ha, Ha', Hp'.
  - split; [|split].
    + apply NoDup_app. split; [done|]. split; [|apply NoDup_singleton]. by intros k' Hk' ->%elem_of_list_singleton.
    + intros k' [Hk'| ->%elem_of_list_singleton]%elem_of_app; [by apply H2|eauto].
    + rewrite wsum_snoc, H3, sum_list_with_app. cbn [sum_list_with grant]. destruct a as [ss d]. rewrite (hits_given _ _ d).
      destruct (xinv_run es) as (H4 & _). rewrite asked_queries, queries_asks, <- H4 in Hp.
      unfold calls in Hp. rewrite !list_lookup_fmap, Hq in Hp. cbn in Hp. injection Hp as <-.
      assert (E : hold_at (x_req (xrun es)) k = if decide (p_id (rq_pack q) = id) then given (ss, d) else 0%nat).
      { unfold hold_at, holds. by rewrite Hq, Ha. }
      rewrite E. lia.
  - split; [done|]. split; [done|]. rewrite wsum_snoc, <- H3. destruct e as [| | | | | |i [o r| |]]; cbn; try lia. destruct o; cbn in *; try lia; done.
Qed.
(** what the tasks spend, against what the answers grant *)
Lemma spend_grant tr : (wsum (won (just id n)) tr - wsum grant tr <= wsum (spend (just id n) nobody) tr)%Z.
Proof.
  induction tr as [|e tr IH] using rev_ind; [done|]. rewrite !wsum_snoc. destruct e as [| | | | | |i [o r| |]]; cbn; try lia.
  destruct o; cbn; try lia.
  - destruct n0 as [j x| | | | |]; cbn; try lia. pose proof (ind_nonneg (just id n j x)). lia.
  - destruct r as [[ss d]|]; lia.
  - destruct r; cbn; lia.
Qed.
End weights.

Lemma xjoint_at es tr ns : xjoint es tr ns -> forall t1 i p a t2, tr = t1 ++ EStep i (LAct (Route p) a) :: t2 ->
  exists ea eb na k q x, es = ea ++ eb /\ xjoint ea t1 na /\ asked ea !! k = Some p /\ x_req (xrun ea) !! k = Some q /\ rq_st q = Done x /\ a = Some x.
Proof.
  assert (Hlast : forall (t1 t2 t : list event) x e, t ++ [e] = t1 ++ x :: t2 ->
    (t2 = [] /\ e = x /\ t = t1) \/ (exists t2', t = t1 ++ x :: t2')).
  { intros t1 t2 t x e H. destruct t2 as [|y t2 _] using rev_ind.
    - apply app_inj_tail in H as [-> ->]. by left.
    - right. rewrite app_comm_cons, app_assoc in H. apply app_inj_tail in H as [-> _]. eauto. }
  induction 1 as [|es tr ns e Hj IH|es tr ns i0 k p0 q x Hj IH Hk Hp Hq Ha|es tr ns e Hj IH He]; intros t1 i p a t2 E.
  - by destruct t1.
  - destruct (IH _ _ _ _ _ E) as (ea & eb & na & k & q & x & -> & H). exists ea, (eb ++ [e]), na, k, q, x. split; [by rewrite app_assoc|done].
  - destruct (Hlast _ _ _ _ _ E) as [(-> & Ee & ->)|(t2' & E')].
    + assert (E1 : LAct (Route p0) (Some x) = LAct (Route p) a) by congruence. assert (E2 := lact_op _ _ _ _ E1). injection E2 as <-.
      apply lact_inj in E1 as <-. exists es, [], ns, k, q, x. split; [by rewrite app_nil_r|done].
    + by eapply IH.
  - destruct (Hlast _ _ _ _ _ E) as [(-> & Ee & ->)|(t2' & E')]; [by subst e|]. by eapply IH.
Qed.

Section props.
Context (host : eid) (gen_reports parallel : bool) (parse_record : list N -> option arecord)
        (lifetime_exceeded : N -> bundle -> bool).
Notation run := (run host gen_reports parallel parse_record lifetime_exceeded).

(** ** C166 *)
(** What the node tries to transmit, the routing program named before, in an answer
    to a query for that bundle: the neighbour, the convergence layer and the address. *)
Theorem C166_only_named : forall es tr ns m t1 i s b r t2,
  run tr m -> xjoint es tr ns -> Forall valid es -> tr = t1 ++ EStep i (LAct (Transfer s b) r) :: t2 ->
  exists ea eb ta tb na, es = ea ++ eb /\ t1 = ta ++ tb /\ xjoint ea ta na /\
  exists e1 p o e2 x o' e3 clas j, ea = e1 ++ XAsk p o :: e2 ++ XRespond x o' :: e3 /\
    p_id p = bid b /\ p_id (rs_pack x) = bid b /\ j ∈ rs_clas x /\ carries_out clas j s.
Proof.
  intros es tr ns m t1 i s b r t2 Hr Hj Hv ->.
  destruct (tried_named _ _ _ _ _ _ _ _ _ _ _ _ Hr) as (ta & p & nodes & del & tb & -> & _ & Hs & Hid).
  rewrite <- app_assoc in Hj. destruct (xjoint_at _ _ _ Hj _ _ _ _ _ eq_refl) as (ea & eb & na & k & q & x & -> & Hj1 & Hp & Hq & Hst & Ex).
  injection Ex as <-. exists ea, eb, ta, (EStep i (LAct (Route p) (Some (nodes, del))) :: tb), na. split; [done|]. split; [done|]. split; [done|].
  apply Forall_app in Hv as [Hv _].
  destruct (C31_only_matching_answers ea k (nodes, del) p Hv) as (e1 & x & o' & e2 & clas & e3 & E & Hn & Hx & _ & Hf & _).
  { by exists q. } { done. } { intros [= -> _]. by apply elem_of_nil in Hs. }
  assert (Ha : exists f1 o f2, e1 = f1 ++ XAsk p o :: f2).
  { rewrite asked_queries, E in Hp. unfold queries in Hp. rewrite omap_app in Hp. fold (queries e1) in Hp. rewrite lookup_app_l in Hp by done.
    apply elem_of_list_lookup_2 in Hp. unfold queries in Hp. apply elem_of_list_omap in Hp as (e & He & Hep).
    destruct e; try done. injection Hep as ->. apply elem_of_list_split in He as (f1 & f2 & ->). eauto. }
  destruct Ha as (f1 & o & f2 & ->).
  cbn [fst] in Hf. apply elem_of_list_lookup in Hs as [z Hz].
  destruct (Forall2_lookup_r _ _ _ _ _ Hf Hz) as (j & Hj' & Hc). apply elem_of_list_lookup_2, elem_of_list_filter in Hj' as [_ Hj'].
  exists f1, p, o, f2, x, o', (e2 ++ XWake k clas :: e3), clas, j. split; [rewrite E, <- app_assoc; done|].
  split; [done|]. split; [congruence|]. done.
Qed.
(** A neighbour gets a bundle at most as often as the answers for it name the
    neighbour. *)
Theorem C166_as_often_as_named : forall es tr ns m id n,
  run tr m -> xjoint es tr ns -> (number (transmitted true id n) tr <= N.of_nat (named_in id n es)).
Proof.
  intros es tr ns m id n Hr Hj. assert (H1 := spent _ _ _ _ _ (just id n) nobody tr m Hr).
  assert (H2 := spend_grant id n tr). destruct (xjoint_grants id n _ _ _ Hj) as (Hn & _ & H3).
  assert (H4 := hold_some id n (x_req (xrun es)) ns Hn). assert (H5 := hold_run id n es). rewrite won_transmitted in H2. lia.
Qed.
(** As long as no routing program has connected nothing is transmitted. *)
Theorem C166_nothing_without_router : forall es tr ns m i s b r,
  run tr m -> xjoint es tr ns -> XConnect ∉ es -> EStep i (LAct (Transfer s b) r) ∉ tr.
Proof.
  intros es tr ns m i s b r Hr Hj Hno (t1 & t2 & ->)%elem_of_list_split.
  destruct (tried_named _ _ _ _ _ _ _ _ _ _ _ _ Hr) as (ta & p & nodes & del & tb & -> & _ & Hs & Hid).
  rewrite <- app_assoc in Hj. destruct (xjoint_at _ _ _ Hj _ _ _ _ _ eq_refl) as (ea & eb & na & k & q & x & -> & _ & Hp & Hq & Hst & Ex).
  injection Ex as <-.
  assert (Hc : forall es', (forall e, e ∈ es' -> e ∈ ea) -> connected es' = false).
  { intros es'. unfold connected. induction es' as [|e es' IH] using rev_ind; intros H; [done|]. rewrite foldl_app. cbn [foldl].
    rewrite IH by (intros e' He'; apply H, elem_of_app; by left). destruct e; try done. exfalso. apply Hno, elem_of_app. left. apply H, elem_of_app. right. left. }
  assert (Hsp : forall es' k', queries es' !! k' = Some p -> exists f1 o f2, es' = f1 ++ XAsk p o :: f2 /\ length (queries f1) = k').
  { clear. induction es' as [|e es' IH]; intros k' Hk; [done|]. destruct e as [| |p' o|r o|n clas|n]; cbn [queries omap list_omap] in Hk;
      try (destruct (IH _ Hk) as (f1 & o1 & f2 & -> & <-); eexists (_ :: f1), o1, f2; done).
    destruct k' as [|k']; [injection Hk as ->; by exists [], o, es'|].
    destruct (IH _ Hk) as (f1 & o1 & f2 & -> & <-). by exists (XAsk p' o :: f1), o1, f2. }
  rewrite asked_queries in Hp. destruct (Hsp _ _ Hp) as (f1 & o & f2 & -> & <-).
  destruct (C31_no_router f1 p o f2) as (q' & Hq' & Hst'); [apply Hc; intros e He; apply elem_of_app; by left|].
  rewrite Hq in Hq'. injection Hq' as <-. rewrite Hst in Hst'. injection Hst' as -> _. by apply elem_of_nil in Hs.
Qed.
End props.
Print Assumptions C166_only_named.
Print Assumptions C166_as_often_as_named.
Print Assumptions C166_nothing_without_router.

(** ** A concrete case *)
(** The node has a bundle for n9.  At the first attempt no routing program is
    connected; at the second one it names a, b and a node over a layer the node does
    not run, and the transmission to a fails; at the third one it names a again; at
    the last one it does not answer in time. *)
Definition script166 :=
  [(spray_to [], [DoStart (KSubmit mine); DoRun 0; DoRun 1]);
   (Oracle (fun _ => Some ([hop "a"; hop "b"], false)) (fun s => bool_decide (called s = "b")) true 7 [1], [DoStart KJanitor; DoRun 2]);
   (spray_to ["a"], [DoStart KJanitor; DoRun 3]);
   (spray_to [], [DoStart KJanitor; DoRun 4])].
Definition run166 := gos script166 (start_node [Dtn "n1" "app"] 2000000 2000).
Definition packs (tr : list event) : list pack :=
  omap (fun e => match e return option pack with EStep _ (LAct (Route p) _) => Some p | _ => None end) tr.
Definition order_of (s : cset) : list constraint :=
  filter (fun c => has_c s c = true) [DispatchPending; ForwardPending; ReassemblyPending; Contraindicated; LocalEndpoint; Deleted].
Lemma order_ok s : enumerates (order_of s) s.
Proof.
  split; [apply NoDup_filter; repeat constructor; set_solver|]. intros c. unfold order_of. rewrite elem_of_list_filter.
  split; [by intros [? _]|]. intros H. split; [done|]. destruct c; set_solver.
Qed.
Definition to (n : string) := Instr (AIp "10.0.0.1") None "mtcp" (Dtn n "").
Definition answer166 (p : pack) (l : list External.instr) (k : nat) := [XAsk p (order_of (p_cons p)); XRespond (Response p l false) (order_of (p_cons p)); XWake k layers].
Definition plan166 : list (list xev) :=
  match packs (fst run166) with
  | [p1; p2; p3; p4] => [[XAsk p1 (order_of (p_cons p1))];
                         XConnect :: answer166 p2 [to "a"; Instr (AIp "10.0.0.2") None "udp" (Dtn "c" ""); to "b"] 1;
                         answer166 p3 [to "a"] 2; [XAsk p4 (order_of (p_cons p4)); XExpire 3]]
  | _ => []
  end.
(** the router's part of a run, given what happens before each answer *)
Fixpoint weave (plan : list (list xev)) (es : list xev) (n : nat) (tr : list event) : bool * list xev :=
  match tr with
  | [] => (true, es)
  | e :: tr =>
      match e return bool * list xev with
      | EStep _ (LAct (Route p) a) =>
          let es' := es ++ List.hd [] plan in
          let y := weave (List.tl plan) es' (S n) tr in
          (bool_decide (asked es' !! n = Some p) &&
           match x_req (xrun es') !! n with
           | Some q => match rq_st q with Done x => bool_decide (a = Some x) | _ => false end
           | None => false
           end && fst y, snd y)
      | _ => weave plan es n tr
      end
  end.
Lemma weave_ok tr : forall plan es n t0 ns, xjoint es t0 ns -> (forall k, k ∈ ns -> (k < n)%nat) -> fst (weave plan es n tr) = true ->
  exists ns', xjoint (snd (weave plan es n tr)) (t0 ++ tr) ns'.
Proof.
  induction tr as [|e tr IH]; intros plan es n t0 ns Hj Hn H; [exists ns; by rewrite app_nil_r|].
  assert (Ha : no_answer e -> fst (weave plan es n tr) = true -> exists ns', xjoint (snd (weave plan es n tr)) (t0 ++ e :: tr) ns').
  { intros He H'. destruct (IH plan es n (t0 ++ [e]) ns) as [ns' H2]; [by constructor|done|done|]. exists ns'. by rewrite <- app_assoc in H2. }
  destruct e as [| | | | | |i [o r| |]]; try (by apply Ha). destruct o; try (by apply Ha). clear Ha.
  cbn [weave] in H |- *. cbv zeta in H |- *. cbn [fst snd] in H |- *. set (es' := es ++ List.hd [] plan) in *.
  assert (Hj' : xjoint es' t0 ns).
  { unfold es'. generalize (List.hd [] plan). intros l. induction l as [|x l IHl] using rev_ind; [by rewrite app_nil_r|]. rewrite app_assoc. by constructor. }
  apply andb_true_iff in H as [[H1%bool_decide_eq_true H2]%andb_true_iff H3].
  destruct (x_req (xrun es') !! n) as [q|] eqn:Eq; [|done]. destruct (rq_st q) as [| | |x] eqn:Es; try done. apply bool_decide_eq_true in H2. rewrite H2.
  destruct (IH (List.tl plan) es' (S n) (t0 ++ [EStep i (LAct (Route p) (Some x))]) (ns ++ [n])) as [ns' H4].
  - eapply xj_answer; try done. intros Hk%Hn. lia.
  - intros k [Hk%Hn| ->%elem_of_list_singleton]%elem_of_app; lia.
  - done.
  - exists ns'. by rewrite <- app_assoc in H4.
Qed.
Definition es166 := snd (weave plan166 [] 0 (fst run166)).
Lemma run166_weave : fst (weave plan166 [] 0 (fst run166)) = true.
Proof. vm_compute. reflexivity. Qed.
Lemma es166_is : es166 = concat plan166.
Proof. vm_compute. reflexivity. Qed.
Lemma es166_valid : Forall valid es166.
Proof.
  rewrite es166_is. unfold plan166. destruct (packs (fst run166)) as [|p1 [|p2 [|p3 [|p4 []]]]]; cbn;
    repeat (apply Forall_cons; split; [first [exact I|apply order_ok]|]); constructor.
Qed.
Lemma weave_joint tr plan : fst (weave plan [] 0 tr) = true -> exists ns, xjoint (snd (weave plan [] 0 tr)) tr ns.
Proof. intros H. apply (weave_ok tr plan [] 0 [] []); [constructor|by intros k ?%elem_of_nil|done]. Qed.
Lemma run166_joint : exists ns, xjoint es166 (fst run166) ns.
Proof. exact (weave_joint (fst run166) plan166 run166_weave). Qed.
Example C166_case :
  run node1 false false (fun _ => None) (fun _ _ => false) (fst run166) (snd run166) /\
  (exists ns, xjoint es166 (fst run166) ns) /\ Forall valid es166 /\
  number (transmitted false (bid mine) "a") (fst run166) = 1 /\ number (transmitted true (bid mine) "a") (fst run166) = 1 /\
  number (transmitted true (bid mine) "b") (fst run166) = 1 /\
  named_in (bid mine) "a" es166 = 2%nat /\ named_in (bid mine) "b" es166 = 1%nat /\ length es166 = 10%nat.
Proof.
  split; [exact (gos_run script166 [Dtn "n1" "app"] 2000000 2000)|].
  split; [exact run166_joint|].
  split; [exact es166_valid|]. split; [vm_compute; reflexivity|]. split; [vm_compute; reflexivity|]. split; [vm_compute; reflexivity|].
  split; [vm_compute; reflexivity|]. split; vm_compute; reflexivity.
Qed.
