(** C165: how far spray and wait spreads a bundle. *)
From stdpp Require Import prelude strings pretty gmap sorting.
From Coq Require Import NArith ZArith Lia ZifyBool ZifyN ZifyNat.
From Verif Require Import Core StoreMem Peers PeersProofs Routing RoutingProofs IdProofs SawProofs Pipeline PipelineBase PipelineProofs PipelineInv PipelineCount PipelineRun TransferProofs Props_Transfer ReceptionProofs Props_Reception CauseProofs LocalProofs Props_Epidemic Props_Cause Props_Deliver DispatchProofs Props_Janitor Props_Dispatch NodeRouting NodeRoutingProofs NodeRoutingBack Props_NodeRouting NodeHops Props_NodeHops Network NetworkProofs Props_Network Props_Route Props_RouteEpi Props_RouteSaw.
Open Scope N_scope.

(** ** Specification *)
Section spec.
Context (node_of : nat -> settings).
(** the bundle comes into being at [x0], by one submission, and nowhere else *)
Definition sent_once (tr : list netev) (x0 : nat) (b : bundle) : Prop :=
  exists t1 t2, tr = t1 ++ At x0 (EStart (KSubmit b)) :: t2 /\ forall j b', made (t1 ++ t2) j b' -> bid b' <> bid b.
(** node [x] has had a copy *)
Definition got (tr : list netev) (id : string) (x : nat) : Prop := exists b', b' ∈ entered (proj x tr) /\ bid b' = id.
(** [x] uses spray and wait, with its own name in the settings of the agent *)
Definition uses_saw (tr : list netev) (x : nat) (l : N) : Prop :=
  exists cf cs, joint (spraying cf cs) (proj x tr) /\ wf_eid (s_host (node_of x)) /\
    eid_node_id (s_host (node_of x)) = Some (sc_local cf) /\ sc_l cf = l.
(** what arrives at [y] was sent by another node to the name of [y] *)
Definition to_the_right_node (tr : list netev) (id : string) : Prop :=
  forall x y b', Arrives x y b' ∈ tr -> bid b' = id -> x <> y /\
    exists i s r n, does (proj x tr) i (Transfer s b') r /\ eid_node (sd_hop s) = Some n /\ eid_node (s_host (node_of y)) = Some n.
End spec.

(** ** The agent of a relay *)
Lemma relay_query cf clas p ps : forall d acc del d' ss del', sw_left d <= 1 ->
  (forall s, s ∈ acc -> eid_node (p_dst p) = Some (hop_name s)) ->
  saw_query cf clas p d ps acc del = Some (d', (ss, del')) ->
  d' = d /\ forall s, s ∈ ss -> eid_node (p_dst p) = Some (hop_name s).
Proof.
  induction ps as [|q ps IH]; intros d acc del d' ss del' Hl Ha H; cbn in H; [by injection H as <- <- <-|].
  destruct (eid_node_id (pe_eid q)) as [i0|]; [|done]. destruct (_ || _); [by eapply IH|].
  destruct (sw_left d <? 2) eqn:E; [|lia]. destruct (eid_node (p_dst p)) as [n|] eqn:Ed; [|done].
  case_bool_decide as En; [|by eapply IH]. destruct (first_cla clas q) as [s|] eqn:Ef; [|by eapply IH].
  eapply IH; [done| |done]. intros s' ->%elem_of_list_singleton. by rewrite (first_cla_name _ _ _ Ef), En.
Qed.
Lemma relay_left cf id cs : String.prefix (sc_local cf) id = false -> (forall n, RNotify (SendingFailed id n) ∉ cs) ->
  forall h d, astate (saw_step cf) (Some ∅) cs = Some h -> h !! id = Some d -> sw_left d <= 1.
Proof.
  intros Hp. induction cs as [|c cs IH] using rev_ind; intros Hf h d Hs Hd.
  { cbn in Hs. injection Hs as <-. by rewrite lookup_empty in Hd. }
  destruct (astate_alive_prefix _ _ _ _ _ Hs) as [h0 Hh0]. rewrite astate_app, Hh0 in Hs. cbn in Hs.
  destruct (saw_step cf h0 c) as [[h1 a]|] eqn:Es; [|done]. cbn in Hs. injection Hs as <-.
  assert (Hold : forall d0, h0 !! id = Some d0 -> sw_left d0 <= 1).
  { intros d0 Hd0. eapply IH; [|done|done]. intros n Hn. apply (Hf n). apply elem_of_app. by left. }
  destruct c as [p ps clas|nf|]; cbn in Es.
  - destruct (h0 !! p_id p) as [d0|] eqn:Ed; [|injection Es as <- <-; by eapply Hold].
    destruct (saw_query cf clas p d0 ps [] false) as [[d1 [ss del]]|] eqn:E; [|done]. injection Es as <- <-.
    destruct (decide (p_id p = id)) as [Hid|Hne]; [|rewrite lookup_insert_ne in Hd by done; by eapply Hold].
    rewrite Hid, lookup_insert in Hd. injection Hd as <-. rewrite Hid in Ed. specialize (Hold _ Ed).
    destruct (relay_query _ _ _ _ _ _ _ _ _ _ Hold ltac:(by intros s ?%elem_of_nil) E) as [-> _]. done.
  - injection Es as <- <-. destruct nf as [j m| |b|j m| |]; cbn in Hd; try (by eapply Hold).
    + destruct (h0 !! j) as [d0|] eqn:Ed; [|by eapply Hold].
      destruct (decide (j = id)) as [->|Hne]; [|rewrite lookup_insert_ne in Hd by done; by eapply Hold].
      exfalso. apply (Hf m). apply elem_of_app. right. left.
    + unfold saw_new in Hd. destruct (decide (bid b = id)) as [E|Hne]; [|rewrite lookup_insert_ne in Hd by done; by eapply Hold].
      rewrite E, lookup_insert in Hd. injection Hd as <-. rewrite Hp. cbn. lia.
    + unfold saw_new in Hd. destruct (decide (j = id)) as [->|Hne]; [|rewrite lookup_insert_ne in Hd by done; by eapply Hold].
      rewrite lookup_insert in Hd. injection Hd as <-. rewrite Hp. cbn. lia.
  - injection Es as <- <-. by eapply Hold.
Qed.
(** no transmission fails: the agent is told of no failure *)
Definition one_id (id : string) (i x : string) : bool := bool_decide (i = id).
Lemma wsum_zero (w : label -> Z) tr : (forall i l, EStep i l ∈ tr -> w l = 0%Z) -> wsum w tr = 0%Z.
Proof.
  induction tr as [|e tr IH] using rev_ind; intros H; [done|]. rewrite wsum_snoc, IH.
  - destruct e as [| | | | | |i l]; try done. rewrite (H i l); [done|]. apply elem_of_app. right. left.
  - intros i l Hin. apply (H i). apply elem_of_app. by left.
Qed.
Section one.
Context (host : eid) (gen_reports parallel : bool) (parse_record : list N -> option arecord)
        (lifetime_exceeded : N -> bundle -> bool).
Notation run := (run host gen_reports parallel parse_record lifetime_exceeded).
Lemma no_failure_told cf cs tr m id : run tr m -> joint (spraying cf cs) tr ->
  (forall i s b r, does tr i (Transfer s b) r -> bid b = id -> r = true) -> forall n, RNotify (SendingFailed id n) ∉ cs.
Proof.
  intros Hr Hj Hok n Hin. assert (H := spent _ _ _ _ _ nobody (one_id id) tr m Hr). rewrite (joint_books _ _ _ _ Hj) in H.
  rewrite (wsum_zero (won nobody)), (wsum_zero (lost (one_id id))) in H.
  2:{ intros i [o r| |] Hi; try done. destruct o; try done. cbn. destruct r; [done|]. unfold one_id. case_bool_decide; [|done].
      by specialize (Hok _ _ _ _ Hi H0). }
  2:{ intros i [o r| |] Hi; try done. destruct o; try done. cbn. by destruct r. }
  assert (H1 : lsum (refunds nobody) (spraying cf cs) = 0%Z).
  { rewrite (lsum_ext _ (fun _ => 0%Z)); [|by intros [[|[]|] a] _]. generalize (spraying cf cs). intros l. induction l as [|x l IH]; [done|]. by rewrite lsum_cons, IH. }
  assert (H2 : lsum (grants nobody) (spraying cf cs) = 0%Z).
  { rewrite (lsum_ext _ (fun _ => 0%Z)).
    - generalize (spraying cf cs). intros l. induction l as [|x l IH]; [done|]. by rewrite lsum_cons, IH.
    - intros [[p ps clas| |] [[ss del]|]] _; try done. cbn. by apply hits_zero. }
  rewrite <- (arun_cmds (saw_step cf) (Some ∅) cs) in Hin. apply elem_of_list_fmap in Hin as ([c a] & Ec & Hin). cbn in Ec. subst c.
  change (arun (saw_step cf) (Some ∅) cs) with (spraying cf cs) in Hin.
  apply elem_of_list_split in Hin as (l1 & l2 & E). rewrite E in H at 2. rewrite lsum_app, lsum_cons in H.
  assert (H3 := lsum_nonneg _ l1 (refunds_nonneg (one_id id))). assert (H4 := lsum_nonneg _ l2 (refunds_nonneg (one_id id))).
  assert (H5 : refunds (one_id id) (RNotify (SendingFailed id n), a) = 1%Z) by (cbn; unfold one_id; by rewrite bool_decide_true).
  lia.
Qed.
(** whom a relay gives the bundle *)
Lemma relay_sends cf cs tr m i s b' r id src dst : run tr m -> joint (spraying cf cs) tr -> String.prefix (sc_local cf) id = false ->
  (forall i s b r, does tr i (Transfer s b) r -> bid b = id -> r = true) -> addressed tr id src dst ->
  does tr i (Transfer s b') r -> bid b' = id -> eid_node dst = Some (called s).
Proof.
  intros Hr Hj Hp Hok Ha Hd Hid. assert (Hf := no_failure_told _ _ _ _ _ Hr Hj Hok).
  apply elem_of_list_split in Hd as (t1 & t2 & E). assert (Hr2 := Hr). rewrite E in Hr2.
  destruct (tried_named _ _ _ _ _ _ _ _ _ _ _ _ Hr2) as (ta & p & nodes & del & tb & -> & _ & Hs & Hpid).
  assert (E' : tr = ta ++ EStep i (LAct (Route p) (Some (nodes, del))) :: (tb ++ EStep i (LAct (Transfer s b') r) :: t2)) by (rewrite E, <- app_assoc; done).
  assert (Hdst : p_dst p = dst).
  { eapply (query_addressed _ _ _ _ _ _ _ i p (Some (nodes, del)) src dst Hr); [|by rewrite Hpid, Hid]. rewrite E'. apply elem_of_app. right. left. }
  destruct (agent_query _ _ _ _ _ _ _ _ _ Hj E') as (c1 & ps & clas & c2 & Ecs & _ & Erun).
  rewrite arun_app in Erun. apply app_inv_head in Erun. destruct (answered _ _ _ _ Erun) as (h & h' & Eh & Estep).
  cbn in Estep. destruct (h !! p_id p) as [d|] eqn:Ed.
  2:{ injection Estep as _ <- _. by apply elem_of_nil in Hs. }
  destruct (saw_query cf clas p d ps [] false) as [[d' [ss2 del2]]|] eqn:EQ; [|done]. injection Estep as <- -> ->.
  assert (Hl : sw_left d <= 1).
  { eapply (relay_left cf id c1 Hp); [|done|by rewrite <- Hid, <- Hpid]. intros n Hn. apply (Hf n). rewrite Ecs. apply elem_of_app. by left. }
  destruct (relay_query _ _ _ _ _ _ _ _ _ _ Hl ltac:(by intros ? ?%elem_of_nil) EQ) as [_ H]. rewrite <- Hdst. exact (H _ Hs).
Qed.
Lemma sender_got tr m i s b' r : run tr m -> does tr i (Transfer s b') r -> exists w, w ∈ entered tr /\ bid w = bid b'.
Proof.
  intros Hr Hd. apply elem_of_list_split in Hd as (t1 & t2 & ->).
  destruct (tried_named _ _ _ _ _ _ _ _ _ _ _ _ Hr) as (ta & p & nodes & del & tb & -> & _ & Hs & Hpid).
  rewrite <- app_assoc in Hr. destruct (run_safe _ _ _ _ _ I_prov ta i _ _ m (prov _ _ _ _) Hr) as (k & Hk & HI). cbn in HI.
  destruct (run_app_inv _ _ _ _ _ _ _ _ Hr) as [m1 Hr1].
  destruct (origin_ok _ _ _ _ _ (run_inv _ _ _ _ _ _ _ Hr1) Hk HI) as (_ & x & Hx & Hd).
  destruct Hd as (_ & _ & _ & _ & Hxid & _). exists x. split; [|congruence].
  rewrite entered_born, <- app_assoc, born_app. apply elem_of_app. by left.
Qed.
End one.

(** ** The network *)
Lemma entered_how tr x b : b ∈ entered (proj x tr) -> made tr x b \/ (exists y, Arrives y x b ∈ tr) \/ (exists y, Fetched y x b ∈ tr) \/ At x (EStart (KReceive b)) ∈ tr.
Proof.
  intros H. unfold entered in H. apply elem_of_list_In, in_flat_map in H as (e & He & Hb).
  unfold proj in He. apply in_flat_map in He as (ne & Hne & He). apply elem_of_list_In in Hne.
  destruct ne as [k e'|j k b'|j b'|j k b']; cbn in He; try destruct (decide (k = x)) as [->|]; try done; destruct He as [<-|[]].
  - destruct e' as [[b'|b'| | | |]| | | | | |i [o r| |]]; try done.
    + destruct Hb as [->|[]]. auto.
    + destruct Hb as [->|[]]. left. eexists. split; [done|]. by left.
    + destruct o; try done. destruct r as [out|]; [|done]. destruct Hb as [->|[]]. left. eexists. split; [done|]. right. eauto.
  - destruct Hb as [->|[]]. eauto.
  - destruct Hb as [->|[]]. eauto.
Qed.
Lemma filter_none {A} (P : A -> Prop) `{!forall x, Decision (P x)} (l : list A) : (forall x, x ∈ l -> ~ P x) -> filter P l = [].
Proof.
  induction l as [|x l IH]; intros Hl; [done|]. rewrite filter_cons_False by (apply Hl; left). apply IH. intros y Hy. apply Hl. by right.
Qed.
Lemma entered_app t1 t2 : entered (t1 ++ t2) = entered t1 ++ entered t2.
Proof. apply flat_map_app. Qed.
Section net.
Context (node_of : nat -> settings) (parse_record : list N -> option arecord)
        (lifetime_exceeded : N -> bundle -> bool).
Notation net_run := (net_run node_of parse_record lifetime_exceeded).
Lemma no_plain_receive tr ms x b : net_run tr ms -> At x (EStart (KReceive b)) ∉ tr.
Proof.
  induction 1 as [ms H|tr ms i e m' _ IH He Hs|tr ms j i b' m' _ IH _ Hs|tr ms j b' _ IH _|tr ms j i b' m' _ IH _ Hs]; intros Hin;
    [by apply elem_of_nil in Hin|apply elem_of_app in Hin as [Hin|Hin%elem_of_list_singleton]; [done|]..]; try done.
  injection Hin as <- <-. done.
Qed.
Notation name_of x := (eid_node (s_host (node_of x))).

(** ** C165 *)
(** A bundle is submitted at [x0], all nodes that get it use spray and wait, have
    different names, and no transmission of it fails.  Then only [x0] gives it to
    a node that is not the destination, and the number of nodes that ever had it is
    at most the number of copies [x0] starts with, plus one for the destination. *)
Theorem C165_few_nodes : forall tr ms x0 b l d,
  net_run tr ms -> sent_once tr x0 b ->
  (** the source is on [x0], the destination elsewhere, on the node called [d] *)
  wf_eid (b_src b) -> eid_node_id (b_src b) = eid_node_id (s_host (node_of x0)) ->
  eid_node (b_dst b) = Some d -> name_of x0 <> Some d ->
  uses_saw node_of tr x0 l -> (forall x, got tr (bid b) x -> exists l', uses_saw node_of tr x l') ->
  (forall x y, got tr (bid b) x -> got tr (bid b) y -> name_of x = name_of y -> x = y) ->
  to_the_right_node node_of tr (bid b) -> (forall x y b', Fetched x y b' ∈ tr -> bid b' <> bid b) ->
  (forall x i s b' r, does (proj x tr) i (Transfer s b') r -> bid b' = bid b -> r = true) ->
  (forall x i s b' r, x <> x0 -> does (proj x tr) i (Transfer s b') r -> bid b' = bid b -> called s = d) /\
  (forall ys, NoDup ys -> (forall y, y ∈ ys -> got tr (bid b) y) -> N.of_nat (length ys) <= N.max 1 l + 1).
Proof.
  intros tr ms x0 b l d Hn (t1 & t2 & Etr & Hone) Hws Hsrc Hdst Hx0 (cf & cs & Hj & Hwh & Hloc & Hl) Hsaw Huniq Hright Hfet Hok.
  assert (Hu : only_one tr x0 b).
  { intros j b' (e & He & Ho) Hid. rewrite Etr in He. apply elem_of_app in He as [He|[He|He]%elem_of_cons].
    - exfalso. apply (Hone j b'); [|done]. exists e. split; [|done]. apply elem_of_app. by left.
    - injection He as -> ->. destruct Ho as [[= ->]|(? & ? & ? & ? & ?)]; done.
    - exfalso. apply (Hone j b'); [|done]. exists e. split; [|done]. apply elem_of_app. by right. }
  assert (Hadr : forall x, addressed (proj x tr) (bid b) (b_src b) (b_dst b)).
  { intros x w Hw Hwid. rewrite entered_born in Hw.
    destruct (net_copies _ _ _ _ _ Hn tr [] (eq_sym (app_nil_r _)) _ _ Hw) as (j & b0 & n & f & [H1 H2 _ _]).
    assert (Hid0 : bid b0 = bid b) by (rewrite <- (primary_bid _ _ H2); done).
    destruct (Hu _ _ H1 Hid0) as [_ ->]. unfold primary in H2. by injection H2 as _ -> -> _ _ _ _ _ _. }
  assert (Hgot0 : got tr (bid b) x0).
  { exists b. split; [|done]. rewrite Etr, proj_app, entered_app. apply elem_of_app. right. cbn. rewrite decide_True by done. cbn. left. }
  assert (Hsends : forall x i s b' r, x <> x0 -> does (proj x tr) i (Transfer s b') r -> bid b' = bid b -> called s = d).
  { intros x i s b' r Hx Hd Hid. assert (Hr := net_proj _ _ _ _ _ Hn x).
    assert (Hg : got tr (bid b) x). { destruct (sender_got _ _ _ _ _ _ _ _ _ _ _ Hr Hd) as (w & Hw & Hwid). exists w. split; [done|congruence]. }
    destruct (Hsaw _ Hg) as (l' & cf' & cs' & Hj' & Hwh' & Hloc' & _).
    assert (Hp : String.prefix (sc_local cf') (bid b) = false).
    { destruct (String.prefix (sc_local cf') (bid b)) eqn:E; [|done]. exfalso. apply Hx.
      assert (Hs := own_prefix _ _ _ Hwh' Hws Hloc' E). apply Huniq; [done|done|].
      eapply nid_name; [exact Hloc'|]. by rewrite <- Hsrc. }
    assert (H := relay_sends _ _ _ _ _ _ _ _ _ _ _ _ _ _ _ _ Hr Hj' Hp (Hok x) (Hadr x) Hd Hid). congruence. }
  split; [exact Hsends|]. intros ys Hnd Hys.
  assert (Harr : forall x y b', Arrives x y b' ∈ tr -> bid b' = bid b -> name_of y = Some d \/
    (x = x0 /\ y <> x0 /\ exists e n, e ∈ proj x0 tr /\ relayed (bid b) (b_dst b) e = true /\ name_of y = Some n /\
       match e with EStep _ (LAct (Transfer s _) _) => called s = n | _ => False end)).
  { intros x y b' Ha Hid. destruct (Hright _ _ _ Ha Hid) as (Hxy & i & s & r & n & Hd & Hhop & Hny).
    assert (Hc : called s = n) by (unfold called; by rewrite Hhop).
    destruct (decide (x = x0)) as [->|Hx]; [|left; rewrite Hny; f_equal; rewrite <- Hc; by eapply Hsends].
    destruct (decide (n = d)) as [->|Hnd']; [by left|right]. split; [done|]. split; [done|].
    assert (Hr : r = true) by (by eapply Hok). subst r.
    exists (EStep i (LAct (Transfer s b') true)), n. split; [done|]. split; [|done]. cbn.
    rewrite bool_decide_true by done. cbn. apply bool_decide_eq_true. rewrite Hdst, Hc. congruence. }
  assert (Hback : forall x b', Arrives x x0 b' ∈ tr -> bid b' <> bid b).
  { intros x b' Ha Hid. destruct (Harr _ _ _ Ha Hid) as [?|(_ & ? & _)]; done. }
  assert (Hent : filter (fun x => bid x = bid b) (entered (proj x0 tr)) = [b]).
  { assert (Hno : forall t, (forall e, e ∈ t -> e ∈ t1 ++ t2) -> filter (fun x => bid x = bid b) (entered (proj x0 t)) = []).
    { intros t Ht. assert (Ht' : forall e, e ∈ t -> e ∈ tr).
      { intros e He. rewrite Etr. apply Ht, elem_of_app in He as [He|He]; apply elem_of_app; [by left|right; by right]. }
      apply filter_none. intros w Hw Hid. apply entered_how in Hw as [(e & He & Ho)|[[y Hy]|[[y Hy]|Hy]]].
      - apply (Hone x0 w); [|done]. exists e. split; [by apply Ht|done].
      - by apply (Hback y w); [apply Ht'|].
      - by apply (Hfet y x0 w); [apply Ht'|].
      - by apply (no_plain_receive _ _ x0 w Hn), Ht'. }
    rewrite Etr, proj_app. cbn [proj flat_map at_node]. rewrite decide_True by done. cbn [app].
    rewrite entered_app. change (entered (EStart (KSubmit b) :: flat_map (at_node x0) t2)) with (b :: entered (proj x0 t2)).
    rewrite filter_app, filter_cons_True by done. rewrite (Hno t1), (Hno t2); [done|..]; intros e He; apply elem_of_app; auto. }
  assert (Hcount : number (relayed (bid b) (b_dst b)) (proj x0 tr) <= l - 1).
  { destruct (C135_copies_partial _ _ _ _ _ cf _ _ cs b (net_proj _ _ _ _ _ Hn x0) Hj Hent Hwh Hloc Hws) as [H _].
    assert (Hm : number (missed (bid b) (b_dst b)) (proj x0 tr) = 0).
    { unfold number. rewrite filter_none; [done|]. intros e He Hmi. destruct e as [| | | | | |i [o r| |]]; try done.
      destruct o; try done. cbn in Hmi. destruct r; [done|]. apply andb_true_iff in Hmi as [Hmi%bool_decide_eq_true _].
      by specialize (Hok _ _ _ _ _ He Hmi). }
    rewrite Hm, Hl in H. lia. }
  (* the nodes that are neither [x0] nor the destination *)
  set (relay := fun y => y <> x0 /\ name_of y <> Some d).
  assert (Hsplit : (length ys <= length (filter relay ys) + 2)%nat).
  { assert (H1 : (length (filter (fun y => y = x0) ys) <= 1)%nat).
    { apply (submseteq_length _ [x0]), NoDup_submseteq; [by apply NoDup_filter|]. intros y [-> _]%elem_of_list_filter. left. }
    assert (H2 : (length (filter (fun y => name_of y = Some d) ys) <= 1)%nat).
    { destruct (filter (fun y => name_of y = Some d) ys) as [|y0 r] eqn:E; [cbn; lia|].
      apply (submseteq_length _ [y0]), NoDup_submseteq; [rewrite <- E; by apply NoDup_filter|]. intros y Hy. apply elem_of_list_singleton.
      rewrite <- E in Hy. apply elem_of_list_filter in Hy as [Hy1 Hy2].
      assert (Hy0 : y0 ∈ filter (fun y => name_of y = Some d) ys) by (rewrite E; left). apply elem_of_list_filter in Hy0 as [Hz1 Hz2].
      apply Huniq; [by apply Hys..|congruence]. }
    assert (H3 : forall zs, (length zs <= length (filter relay zs) + length (filter (fun y => y = x0) zs) + length (filter (fun y => name_of y = Some d) zs))%nat).
    { intros zs. induction zs as [|z zs IH]; [cbn; lia|]. rewrite !filter_cons.
      destruct (decide (relay z)) as [Hz|Hz]; cbn [length]; [destruct (decide (z = x0)), (decide (name_of z = Some d)); cbn [length]; lia|].
      destruct (decide (z = x0)) as [Hz1|Hz1]; cbn [length]; [destruct (decide (name_of z = Some d)); cbn [length]; lia|].
      destruct (decide (name_of z = Some d)) as [Hz2|Hz2]; cbn [length]; [lia|]. by destruct Hz. }
    specialize (H3 ys). lia. }
  assert (Hrel : (length (filter relay ys) <= length (filter (fun e => relayed (bid b) (b_dst b) e = true) (proj x0 tr)))%nat).
  { rewrite <- (map_length (fun y => name_of y) (filter relay ys)).
    rewrite <- (map_length (fun e => match e with EStep _ (LAct (Transfer s _) _) => Some (called s) | _ => None end) (filter _ (proj x0 tr))).
    apply submseteq_length, NoDup_submseteq.
    - assert (Hsub : forall y, y ∈ filter relay ys -> got tr (bid b) y) by (intros y [_ Hy]%elem_of_list_filter; by apply Hys).
      assert (Hnd' : NoDup (filter relay ys)) by (by apply NoDup_filter). revert Hsub Hnd'.
      generalize (filter relay ys). intros zs. induction zs as [|z zs IH]; intros Hsub Hz; [constructor|].
      apply NoDup_cons in Hz as [Hz1 Hz2]. cbn. apply NoDup_cons. split.
      + intros (z' & Hz' & Hin)%elem_of_list_fmap. apply Hz1. replace z with z'; [done|]. apply Huniq; [apply Hsub; by right|apply Hsub; left|done].
      + apply IH; [|done]. intros y Hy. apply Hsub. by right.
    - intros n (y & -> & [[Hy1 Hy2] Hy]%elem_of_list_filter)%elem_of_list_fmap.
      destruct (Hys _ Hy) as (b' & Hb' & Hid). apply entered_how in Hb' as [Hm|[[x Hx]|[[x Hx]|Hx]]].
      + by destruct (Hu _ _ Hm Hid).
      + destruct (Harr _ _ _ Hx Hid) as [?|(-> & _ & e & n & He & Hrl & Hnm & Hcl)]; [done|].
        apply elem_of_list_fmap. exists e. split; [|by apply elem_of_list_filter]. rewrite Hnm.
        destruct e as [| | | | | |i [o r| |]]; try done. destruct o; try done. by rewrite Hcl.
      + by destruct (Hfet _ _ _ Hx).
      + by destruct (no_plain_receive _ _ y b' Hn). }
  unfold number in Hcount. lia.
Qed.
End net.
Print Assumptions C165_few_nodes.

(** ** A concrete case *)
(** The nodes of Props_RouteEpi.v and the letter of Props_Route.v.  Node 0 has two
    copies: it sprays one to n1 and keeps the other, also when it meets z later; n1
    passes the bundle to the destination.  Three nodes have had it, the most there
    can be. *)
Definition first165 (i : nat) : oracle :=
  match i with 0%nat => fate (Some ([hop "n1"], false)) true | _ => fate (Some ([hop "n2"], true)) true end.
Definition later165 (i : nat) : oracle := fate (Some ([], false)) true.
Definition begun165 := nscript line (fun _ => None) (fun _ _ => false) first165
  [NStart 0 (KSubmit mail); NRun 0 0; NRun 0 1; NSend 0 1; NRun 1 0; NRun 1 1; NSend 1 2; NRun 2 0] []
  (fun i => start_node [Dtn (name i) "in"] 2000000 2000).
Definition run165 := nscript line (fun _ => None) (fun _ _ => false) later165 [NStart 0 KJanitor; NRun 0 2] (fst begun165) (snd begun165).
Lemma run165_ok : net_run line (fun _ => None) (fun _ _ => false) (fst run165) (snd run165).
Proof. unfold run165, begun165. apply nscript_run, nscript_run, net_init. intros i. apply start_initial. Qed.
Definition near165 (i : nat) := match i with 0%nat => [["n1"]; ["n1"; "z"]] | _ => [["n0"; "z"; "n2"]] end.
Definition cf165 (i : nat) := SawConf 2 ("dtn://" +:+ match i with 0%nat => "n0" | 1%nat => "n1" | _ => "n2" end +:+ "/").
Lemma run165_saw i : (i < 3)%nat -> uses_saw line (fst run165) i 2.
Proof.
  intros Hi. exists (cf165 i), (map fst (annotate (near165 i) (proj i (fst run165)))).
  assert (H : spraying (cf165 i) (map fst (annotate (near165 i) (proj i (fst run165)))) = annotate (near165 i) (proj i (fst run165))).
  { destruct i as [|[|[|i]]]; [by vm_compute..|lia]. }
  rewrite H. split; [apply annotate_joint|]. clear H. destruct i as [|[|[|i]]]; [split; [by vm_compute|split; reflexivity]..|lia].
Qed.
Definition places (tr : list netev) : list nat :=
  flat_map (fun e => match e with At i _ | Arrives _ i _ | Fetched _ i _ => [i] | Serves _ _ => [] end) tr.
Lemma got_place tr id x : got tr id x -> x ∈ places tr.
Proof.
  intros (b & Hb & _). unfold entered in Hb. apply elem_of_list_In, in_flat_map in Hb as (e & He & _).
  unfold proj in He. apply in_flat_map in He as (ne & Hne & He). apply elem_of_list_In, in_flat_map. exists ne. split; [done|].
  destruct ne as [k e'|j k b'|j b'|j k b']; cbn in He; try destruct (decide (k = x)) as [->|]; try done; by left.
Qed.
Definition arrives_well (tr : list netev) (id : string) : bool :=
  forallb (fun e => match e with
    | Arrives x y b' => negb (Nat.eqb x y) && existsb (fun e => match e return bool with
        | EStep _ (LAct (Transfer s b'') _) => bool_decide (b'' = b') && bool_decide (eid_node (sd_hop s) = eid_node (s_host (line y)))
        | _ => false end) (proj x tr)
    | Fetched _ _ _ => false
    | At _ (EStep _ (LAct (Transfer _ _) r)) => r
    | _ => true end) tr.
Lemma run165_well : arrives_well (fst run165) (bid mail) = true.
Proof. vm_compute. reflexivity. Qed.
Lemma well_right tr id : arrives_well tr id = true -> to_the_right_node line tr id.
Proof.
  intros H x y b' Hin _. unfold arrives_well in H. rewrite forallb_forall in H. apply elem_of_list_In in Hin. specialize (H _ Hin). cbn beta iota in H.
  apply andb_true_iff in H as [H1 H2]. apply negb_true_iff, Nat.eqb_neq in H1. split; [done|].
  apply existsb_exists in H2 as (e & He & H2). destruct e as [| | | | | |i [o r| |]]; try done. destruct o; try done.
  apply andb_true_iff in H2 as [->%bool_decide_eq_true H2%bool_decide_eq_true].
  exists i, s, r, (match y with 0%nat => "n0" | 1%nat => "n1" | 2%nat => "n2" | _ => "elsewhere" end).
  split; [by apply elem_of_list_In|]. rewrite H2. done.
Qed.
Lemma well_ok tr id : arrives_well tr id = true -> forall x i s b' r, does (proj x tr) i (Transfer s b') r -> r = true.
Proof.
  intros H x i s b' r Hd. apply at_of_proj in Hd. unfold arrives_well in H. rewrite forallb_forall in H. apply elem_of_list_In in Hd. by specialize (H _ Hd).
Qed.
Lemma well_fetched tr id : arrives_well tr id = true -> forall x y b', Fetched x y b' ∉ tr.
Proof. intros H x y b' Hd. unfold arrives_well in H. rewrite forallb_forall in H. apply elem_of_list_In in Hd. by specialize (H _ Hd). Qed.
Lemma run165_once : sent_once (fst run165) 0 mail.
Proof.
  exists [], (tail (fst run165)). split; [by vm_compute|]. intros j b' Hm. apply mades_spec in Hm.
  replace (mades ([] ++ tail (fst run165))) with ([] : list (nat * bundle)) in Hm by (by vm_compute). by apply elem_of_nil in Hm.
Qed.
Lemma run165_got x : got (fst run165) (bid mail) x -> (x < 3)%nat.
Proof.
  intros H%got_place. assert (Hp : forallb (fun i => Nat.ltb i 3) (places (fst run165)) = true) by (vm_compute; reflexivity).
  rewrite forallb_forall in Hp. apply elem_of_list_In in H. apply Hp in H. by apply Nat.ltb_lt.
Qed.
Lemma run165_got_all y : y ∈ [0%nat; 1%nat; 2%nat] -> got (fst run165) (bid mail) y.
Proof.
  intros Hy. assert (H : existsb (fun b' => bool_decide (bid b' = bid mail)) (entered (proj y (fst run165))) = true).
  { rewrite !elem_of_cons, elem_of_nil in Hy. destruct Hy as [->|[->|[->|[]]]]; vm_compute; reflexivity. }
  apply existsb_exists in H as (b' & Hb & H%bool_decide_eq_true). exists b'. split; [by apply elem_of_list_In|done].
Qed.
Example C165_case :
  net_run line (fun _ => None) (fun _ _ => false) (fst run165) (snd run165) /\
  sent_once (fst run165) 0 mail /\ wf_eid (b_src mail) /\ eid_node_id (b_src mail) = eid_node_id (s_host (line 0)) /\
  eid_node (b_dst mail) = Some "n2" /\ eid_node (s_host (line 0)) <> Some "n2" /\
  uses_saw line (fst run165) 0 2 /\ (forall x, got (fst run165) (bid mail) x -> exists l', uses_saw line (fst run165) x l') /\
  (forall x y, got (fst run165) (bid mail) x -> got (fst run165) (bid mail) y -> eid_node (s_host (line x)) = eid_node (s_host (line y)) -> x = y) /\
  to_the_right_node line (fst run165) (bid mail) /\
  (forall x y b', Fetched x y b' ∈ fst run165 -> bid b' <> bid mail) /\
  (forall x i s b' r, does (proj x (fst run165)) i (Transfer s b') r -> bid b' = bid mail -> r = true) /\
  (forall y, y ∈ [0%nat; 1%nat; 2%nat] -> got (fst run165) (bid mail) y) /\
  number (relayed (bid mail) (b_dst mail)) (proj 0 (fst run165)) = 1.
Proof.
  split; [exact run165_ok|]. split; [exact run165_once|]. split; [by vm_compute|]. split; [reflexivity|]. split; [reflexivity|]. split; [discriminate|].
  split; [apply run165_saw; lia|]. split; [intros x Hx; exists 2; by apply run165_saw, run165_got|].
  split. { intros x y Hx%run165_got Hy%run165_got. destruct x as [|[|[|x]]], y as [|[|[|y]]]; try lia; discriminate. }
  split; [by apply well_right, run165_well|]. split; [intros x y b' H; by destruct (well_fetched _ _ run165_well _ _ _ H)|].
  split; [intros x i s b' r H _; by eapply (well_ok _ _ run165_well)|]. split; [exact run165_got_all|]. vm_compute. reflexivity.
Qed.
