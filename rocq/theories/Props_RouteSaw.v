(** C163: spray and wait gets a bundle to its destination. *)
From stdpp Require Import prelude strings pretty gmap sorting.
From Coq Require Import NArith Lia ZifyBool ZifyN ZifyNat.
From Verif Require Import Core StoreMem Peers PeersProofs Routing RoutingProofs IdProofs Pipeline PipelineBase PipelineProofs PipelineInv PipelineRun TransferProofs Props_Transfer ReceptionProofs Props_Reception CauseProofs LocalProofs Props_Epidemic Props_Cause Props_Deliver DispatchProofs Props_Janitor Props_Dispatch NodeRouting NodeRoutingProofs NodeRoutingBack Props_NodeRouting NodeHops Props_NodeHops Network NetworkProofs Props_Network Props_Route Props_RouteEpi SawProofs.
Open Scope N_scope.

(** ** Specification *)
Section spec.
Context (node_of : nat -> settings).
(** a neighbour called [n] can be reached, which does not have the id of this node *)
Definition contact (cf : saw_conf) (ps : list peer) (clas : list cla) (n : string) : Prop :=
  exists q, q ∈ ps /\ node_name q = n /\ reachable clas q /\ eid_node_id (pe_eid q) <> Some (sc_local cf).
(** how many transmissions of the bundle the agent has asked for *)
Definition named_so_far (id : string) (l : list (rcmd * option answer)) : nat :=
  sum_list (map (fun e => match e with (RSender p _ _, Some (ss, _)) => if decide (p_id p = id) then length ss else 0%nat | _ => 0%nat end) l).
(** [x] uses spray and wait and has [y] among its neighbours, called [n], at some
    time when [cond] holds and its agent is asked for the bundle, if the agent is
    ever asked.  The agent is alive, no transmission to [y] fails, and what is
    transmitted to [y] arrives there.  No status report gets the id of the bundle. *)
Definition sees (cond : list (rcmd * option answer) -> list peer -> Prop) (cf : saw_conf) (cs : list rcmd) (n : string) (tr : list netev) (x y : nat) (b : bundle) : Prop :=
  n <> "" /\ joint (spraying cf cs) (proj x tr) /\
  (forall i p a, does (proj x tr) i (Route p) a -> p_id p = bid b -> a <> None) /\
  ((exists p ps clas, RSender p ps clas ∈ cs /\ p_id p = bid b) ->
     exists cs1 p ps clas cs2, cs = cs1 ++ RSender p ps clas :: cs2 /\ p_id p = bid b /\ contact cf ps clas n /\ cond (spraying cf cs1) ps) /\
  RNotify (SendingFailed (bid b) n) ∉ cs /\
  (forall i s b', does (proj x tr) i (Transfer s b') true -> bid b' = bid b -> called s = n -> Arrives x y b' ∈ tr) /\
  (forall i b0 st rs out, does (proj x tr) i (NewReport b0 st rs) (Some out) -> bid out <> bid b).
(** [x] meets the destination: [y] has the node name of the destination *)
Definition waits (tr : list netev) (x y : nat) (b : bundle) : Prop :=
  exists cf cs n, eid_node (b_dst b) = Some n /\ sees (fun _ _ => True) cf cs n tr x y b.
(** [x], where the bundle was made, meets [y] while it has copies for all its
    neighbours and one to keep; it never reaches the destination itself *)
Definition sprays (tr : list netev) (x y : nat) (b : bundle) : Prop :=
  exists cf cs n name sv sv', s_host (node_of x) = Dtn name sv /\ b_src b = Dtn name sv' /\
    eid_node_id (s_host (node_of x)) = Some (sc_local cf) /\
    (forall p ps clas d, RSender p ps clas ∈ cs -> p_id p = bid b -> eid_node (b_dst b) = Some d -> ~ reach_node ps clas d) /\
    sees (fun l ps => N.of_nat (named_so_far (bid b) l + length ps) < sc_l cf) cf cs n tr x y b.
Definition passing (tr : list netev) (x y : nat) (b : bundle) : Prop :=
  (exists P, leads tr x y (bid b) P) \/ meets node_of tr x y b \/ waits tr x y b \/ sprays tr x y b.
(** the nodes of the route: each but the last is not the destination, and leads to
    the next (C160), meets it with epidemic routing (C162), or passes the bundle on
    with spray and wait *)
Fixpoint chain (tr : list netev) (ms : nat -> machine) (b : bundle) (x : nat) (l : list nat) : Prop :=
  all_ended (ms x) /\
  match l with
  | [] => True
  | y :: l => for_others (s_host (node_of x)) b /\ passing tr x y b /\ chain tr ms b y l
  end.
End spec.

(** ** Proofs *)
Lemma app_same_end s : forall s' t, s +:+ t = s' +:+ t -> s = s'.
Proof.
  intros s' t H. assert (Hl : String.length s = String.length s').
  { assert (Ha : forall u v, String.length (u +:+ v) = (String.length u + String.length v)%nat) by (intros u v; induction u as [|c u IH]; [done|rewrite app_cons_s; cbn [String.length Nat.add]; f_equal; exact IH]).
    assert (E := f_equal String.length H). rewrite !Ha in E. lia. }
  revert s' Hl H. induction s as [|c s IH]; intros [|c' s'] Hl H; try done. cbn in *. injection H as -> H. f_equal. apply IH; [lia|done].
Qed.
Lemma nid_name a b i : eid_node_id a = Some i -> eid_node_id b = Some i -> eid_node a = eid_node b.
Proof.
  destruct a, b; cbn; intros Ha Hb; try done; rewrite <- Hb in Ha; injection Ha as Ha; try done; f_equal; by eapply app_same_end.
Qed.
Lemma nid_node_name q q' i : eid_node_id (pe_eid q) = Some i -> eid_node_id (pe_eid q') = Some i -> node_name q = node_name q'.
Proof. intros H1 H2. unfold node_name, node_or_empty. by rewrite (nid_name _ _ _ H1 H2). Qed.
Definition has (n : string) (ss : list sender) : Prop := exists s, s ∈ ss /\ hop_name s = n.
(** one query, for a bundle to [n] *)
Lemma saw_query_dest cf clas p n ps : eid_node (p_dst p) = Some n -> forall d acc del d' ss del',
  saw_query cf clas p d ps acc del = Some (d', (ss, del')) ->
  (has n acc -> has n ss) /\
  (forall q, q ∈ ps -> node_name q = n -> is_Some (first_cla clas q) -> eid_node_id (pe_eid q) <> Some (sc_local cf) ->
     (forall i, eid_node_id (pe_eid q) = Some i -> i ∉ sw_nodes d) -> has n ss) /\
  (forall i, i ∈ sw_nodes d' -> i ∈ sw_nodes d \/ exists q, q ∈ ps /\ eid_node_id (pe_eid q) = Some i /\ (node_name q = n -> has n ss)).
Proof.
  intros Hdst. induction ps as [|q0 ps IH]; intros d acc del d' ss del' H; cbn in H.
  { injection H as <- <- <-. split; [done|]. split; [by intros q ?%elem_of_nil|]. by left. }
  destruct (eid_node_id (pe_eid q0)) as [i0|] eqn:E0; [|done].
  assert (Hskip : saw_query cf clas p d ps acc del = Some (d', (ss, del')) ->
    ((node_name q0 = n -> is_Some (first_cla clas q0) -> i0 <> sc_local cf -> i0 ∉ sw_nodes d -> False) \/ has n ss) ->
    (has n acc -> has n ss) /\
    (forall q, q ∈ q0 :: ps -> node_name q = n -> is_Some (first_cla clas q) -> eid_node_id (pe_eid q) <> Some (sc_local cf) ->
     (forall i, eid_node_id (pe_eid q) = Some i -> i ∉ sw_nodes d) -> has n ss) /\
    (forall i, i ∈ sw_nodes d' -> i ∈ sw_nodes d \/ exists q, q ∈ q0 :: ps /\ eid_node_id (pe_eid q) = Some i /\ (node_name q = n -> has n ss))).
  { intros Hs Hno. destruct (IH _ _ _ _ _ _ Hs) as (H1 & H2 & H3). split; [done|]. split.
    - intros q [->|Hq]%elem_of_cons Hn Hf Hl Hi; [|by eapply H2]. destruct Hno as [Hno|?]; [|done]. exfalso. apply Hno; [done|done|congruence|by apply Hi].
    - intros i Hi. destruct (H3 i Hi) as [?|(q & Hq & ?)]; [by left|right]. exists q. split; [by right|done]. }
  destruct (bool_decide (i0 = sc_local cf) || bool_decide (i0 ∈ sw_nodes d)) eqn:Eb.
  { apply Hskip; [done|left]. intros _ _ Hl Hi. apply orb_true_iff in Eb as [Eb|Eb]; by apply bool_decide_eq_true in Eb. }
  apply orb_false_iff in Eb as [_ Eb]. apply bool_decide_eq_false in Eb.
  destruct (sw_left d <? 2) eqn:El.
  - rewrite Hdst in H. destruct (bool_decide (n = node_name q0)) eqn:En.
    + apply bool_decide_eq_true in En. destruct (first_cla clas q0) as [s|] eqn:Ef.
      * destruct (IH _ _ _ _ _ _ H) as (H1 & H2 & H3).
        assert (Hs : has n ss) by (apply H1; exists s; split; [left|]; by rewrite (first_cla_name _ _ _ Ef)).
        split; [done|]. split; [done|]. intros i Hi. destruct (H3 i Hi) as [?|(q & Hq & ?)]; [by left|right]. exists q. split; [by right|done].
      * apply Hskip; [done|left]. intros _ [? ?]. done.
    + apply bool_decide_eq_false in En. apply Hskip; [done|left]. intros. by apply En.
  - destruct (first_cla clas q0) as [s|] eqn:Ef.
    + destruct (IH _ _ _ _ _ _ H) as (H1 & H2 & H3). cbn [sw_nodes] in *.
      assert (Hs : node_name q0 = n -> has n ss).
      { intros Hn. apply H1. exists s. split; [apply elem_of_app; right; left|]. by rewrite (first_cla_name _ _ _ Ef). }
      split; [|split].
      * intros (s' & Hs' & ?). apply H1. exists s'. split; [|done]. apply elem_of_app. by left.
      * intros q [->|Hq]%elem_of_cons Hn Hf Hl Hi; [by apply Hs|].
        destruct (decide (eid_node_id (pe_eid q) = Some i0)) as [Ei|Ei].
        { apply Hs. rewrite <- Hn. by eapply nid_node_name. }
        apply (H2 q); try done. intros i Eqi [?|?%elem_of_list_singleton]%elem_of_app; [by eapply Hi|congruence].
      * intros i Hi. destruct (H3 i Hi) as [[?| ->%elem_of_list_singleton]%elem_of_app|(q & Hq & ?)]; [by left| |].
        -- right. exists q0. split; [left|]. done.
        -- right. exists q. split; [by right|done].
    + apply Hskip; [done|left]. intros _ [? ?]. done.
Qed.
(** one query when the destination is not there *)
Lemma saw_query_spray cf clas p n ps : (forall q, q ∈ ps -> is_Some (first_cla clas q) -> eid_node (p_dst p) <> Some (node_name q)) ->
  forall d acc del d' ss del', saw_query cf clas p d ps acc del = Some (d', (ss, del')) ->
  (has n acc -> has n ss) /\ sw_left d' + N.of_nat (length ss) = sw_left d + N.of_nat (length acc) /\
  (forall q, q ∈ ps -> node_name q = n -> is_Some (first_cla clas q) -> eid_node_id (pe_eid q) <> Some (sc_local cf) ->
     (forall i, eid_node_id (pe_eid q) = Some i -> i ∉ sw_nodes d) -> N.of_nat (length ps) < sw_left d -> has n ss) /\
  (forall i, i ∈ sw_nodes d' -> i ∈ sw_nodes d \/ exists q, q ∈ ps /\ eid_node_id (pe_eid q) = Some i /\ (node_name q = n -> has n ss)).
Proof.
  induction ps as [|q0 ps IH]; intros Hno d acc del d' ss del' H; cbn in H.
  { injection H as <- <- <-. split; [done|]. split; [done|]. split; [by intros q ?%elem_of_nil|]. by left. }
  specialize (IH (fun q Hq => Hno q (elem_of_list_further _ _ _ Hq))).
  destruct (eid_node_id (pe_eid q0)) as [i0|] eqn:E0; [|done].
  assert (Hskip : saw_query cf clas p d ps acc del = Some (d', (ss, del')) ->
    (is_Some (first_cla clas q0) -> i0 <> sc_local cf -> i0 ∉ sw_nodes d -> N.of_nat (length (q0 :: ps)) < sw_left d -> False) ->
    (has n acc -> has n ss) /\ sw_left d' + N.of_nat (length ss) = sw_left d + N.of_nat (length acc) /\
    (forall q, q ∈ q0 :: ps -> node_name q = n -> is_Some (first_cla clas q) -> eid_node_id (pe_eid q) <> Some (sc_local cf) ->
     (forall i, eid_node_id (pe_eid q) = Some i -> i ∉ sw_nodes d) -> N.of_nat (length (q0 :: ps)) < sw_left d -> has n ss) /\
    (forall i, i ∈ sw_nodes d' -> i ∈ sw_nodes d \/ exists q, q ∈ q0 :: ps /\ eid_node_id (pe_eid q) = Some i /\ (node_name q = n -> has n ss))).
  { intros Hs Hnot. destruct (IH _ _ _ _ _ _ Hs) as (H1 & HL & H2 & H3). split; [done|]. split; [done|]. split.
    - intros q [->|Hq]%elem_of_cons Hn Hf Hl Hi Hle; [|eapply H2; try done; cbn in Hle; lia]. exfalso. apply Hnot; [done|congruence|by apply Hi|done].
    - intros i Hi. destruct (H3 i Hi) as [?|(q & Hq & ?)]; [by left|right]. exists q. split; [by right|done]. }
  destruct (bool_decide (i0 = sc_local cf) || bool_decide (i0 ∈ sw_nodes d)) eqn:Eb.
  { apply Hskip; [done|]. intros _ Hl Hi. apply orb_true_iff in Eb as [Eb|Eb]; by apply bool_decide_eq_true in Eb. }
  destruct (sw_left d <? 2) eqn:El.
  - assert (Hs : saw_query cf clas p d ps acc del = Some (d', (ss, del'))).
    { destruct (eid_node (p_dst p)) as [m|] eqn:Em; [|done]. destruct (bool_decide (m = node_name q0)) eqn:En; [|done].
      apply bool_decide_eq_true in En. destruct (first_cla clas q0) eqn:Ef; [|done]. exfalso. apply (Hno q0); [left|by rewrite Ef|]. congruence. }
    apply Hskip; [done|]. intros _ _ _ Hle. cbn in Hle. lia.
  - destruct (first_cla clas q0) as [s|] eqn:Ef.
    + destruct (IH _ _ _ _ _ _ H) as (H1 & HL & H2 & H3). cbn [sw_nodes sw_left] in *. rewrite app_length in HL. cbn in HL.
      assert (Hs : node_name q0 = n -> has n ss).
      { intros Hn. apply H1. exists s. split; [apply elem_of_app; right; left|]. by rewrite (first_cla_name _ _ _ Ef). }
      split; [|split; [|split]].
      * intros (s' & Hs' & ?). apply H1. exists s'. split; [|done]. apply elem_of_app. by left.
      * lia.
      * intros q [->|Hq]%elem_of_cons Hn Hf Hl Hi Hle; [by apply Hs|].
        destruct (decide (eid_node_id (pe_eid q) = Some i0)) as [Ei|Ei].
        { apply Hs. rewrite <- Hn. by eapply nid_node_name. }
        apply (H2 q); try done; [|cbn in Hle; lia]. intros i Eqi [?|?%elem_of_list_singleton]%elem_of_app; [by eapply Hi|congruence].
      * intros i Hi. destruct (H3 i Hi) as [[?| ->%elem_of_list_singleton]%elem_of_app|(q & Hq & ?)]; [by left| |].
        -- right. exists q0. split; [left|]. done.
        -- right. exists q. split; [by right|done].
    + apply Hskip; [done|]. intros [? ?]. done.
Qed.
(** who is in the list of an agent was named *)
Lemma nodes_named cf id n cs : forall h d, astate (saw_step cf) (Some ∅) cs = Some h ->
  (forall p ps clas d d' ss del, RSender p ps clas ∈ cs -> p_id p = id -> saw_query cf clas p d ps [] false = Some (d', (ss, del)) ->
     forall i, i ∈ sw_nodes d' -> i ∈ sw_nodes d \/ exists q, q ∈ ps /\ eid_node_id (pe_eid q) = Some i /\ (node_name q = n -> has n ss)) ->
  h !! id = Some d -> forall i q0, i ∈ sw_nodes d -> eid_node_id (pe_eid q0) = Some i -> node_name q0 = n ->
  exists e, e ∈ spraying cf cs /\ hands e id n.
Proof.
  induction cs as [|c cs IH] using rev_ind; intros h d Hs Hq Hd i q0 Hi Hi0 Hn0.
  { cbn in Hs. injection Hs as <-. by rewrite lookup_empty in Hd. }
  destruct (astate_alive_prefix _ _ _ _ _ Hs) as [h0 Hh0]. rewrite astate_app, Hh0 in Hs. cbn in Hs.
  destruct (saw_step cf h0 c) as [[h1 a]|] eqn:Es; [|done]. cbn in Hs. injection Hs as <-.
  unfold spraying. rewrite arun_app, Hh0. cbn. rewrite Es.
  assert (Hold : forall d0, h0 !! id = Some d0 -> i ∈ sw_nodes d0 -> exists e, e ∈ arun (saw_step cf) (Some ∅) cs ++ [(c, a)] /\ hands e id n).
  { intros d0 Hd0 Hi1. destruct (IH h0 d0 Hh0) with (i := i) (q0 := q0) as (e & He & Hh); try done.
    - intros p ps clas d1 d2 ss del Hin. apply (Hq p ps clas d1 d2 ss del). apply elem_of_app. by left.
    - exists e. split; [|done]. apply elem_of_app. by left. }
  destruct c as [p ps clas|nf|]; cbn in Es.
  - destruct (h0 !! p_id p) as [d0|] eqn:Ed.
    + destruct (saw_query cf clas p d0 ps [] false) as [[d1 [ss del]]|] eqn:E; [|done]. injection Es as <- <-.
      destruct (decide (p_id p = id)) as [Hid|Hne]; [|rewrite lookup_insert_ne in Hd by done; by eapply Hold].
      rewrite Hid, lookup_insert in Hd. injection Hd as ->.
      destruct (Hq p ps clas d0 d ss del) with (i := i) as [Hin|(q & Hq1 & Hqi & Hhas)]; try done.
      { apply elem_of_app. right. left. }
      { rewrite Hid in Ed. by eapply Hold. }
      destruct Hhas as (s & Hs & Hsn). { rewrite <- Hn0. by eapply nid_node_name. }
      exists (RSender p ps clas, Some (ss, del)). split; [apply elem_of_app; right; left|]. by exists p, ps, clas, ss, del, s.
    + injection Es as <- <-. by eapply Hold.
  - injection Es as <- <-. destruct nf as [j m| |b|j m| |]; cbn in Hd; try (by eapply Hold).
    + destruct (h0 !! j) as [d0|] eqn:Ed; [|by eapply Hold]. destruct (decide (j = id)) as [->|Hne]; [|rewrite lookup_insert_ne in Hd by done; by eapply Hold].
      rewrite lookup_insert in Hd. injection Hd as <-. cbn in Hi. apply elem_of_list_filter in Hi as [_ Hi]. by eapply Hold.
    + unfold saw_new in Hd. destruct (decide (bid b = id)) as [<-|Hne]; [|rewrite lookup_insert_ne in Hd by done; by eapply Hold].
      rewrite lookup_insert in Hd. injection Hd as <-. by apply elem_of_nil in Hi.
    + unfold saw_new in Hd. destruct (decide (j = id)) as [->|Hne]; [|rewrite lookup_insert_ne in Hd by done; by eapply Hold].
      rewrite lookup_insert in Hd. injection Hd as <-. by apply elem_of_nil in Hi.
  - injection Es as <- <-. by eapply Hold.
Qed.
(** what is left of the copies *)
Lemma named_so_far_app id l1 l2 : named_so_far id (l1 ++ l2) = (named_so_far id l1 + named_so_far id l2)%nat.
Proof. unfold named_so_far. by rewrite map_app, sum_list_with_app. Qed.
Lemma copies_left cf id cs : String.prefix (sc_local cf) id = true -> forall h d, astate (saw_step cf) (Some ∅) cs = Some h ->
  (forall p ps clas d d' ss del, RSender p ps clas ∈ cs -> p_id p = id -> saw_query cf clas p d ps [] false = Some (d', (ss, del)) ->
     sw_left d' + N.of_nat (length ss) = sw_left d) ->
  h !! id = Some d -> sc_l cf <= sw_left d + N.of_nat (named_so_far id (spraying cf cs)).
Proof.
  intros Hpre. induction cs as [|c cs IH] using rev_ind; intros h d Hs Hq Hd.
  { cbn in Hs. injection Hs as <-. by rewrite lookup_empty in Hd. }
  destruct (astate_alive_prefix _ _ _ _ _ Hs) as [h0 Hh0]. rewrite astate_app, Hh0 in Hs. cbn in Hs.
  destruct (saw_step cf h0 c) as [[h1 a]|] eqn:Es; [|done]. cbn in Hs. injection Hs as <-.
  unfold spraying. rewrite arun_app, Hh0. cbn. rewrite Es. rewrite named_so_far_app. fold (spraying cf cs).
  assert (Hold : forall d0, h0 !! id = Some d0 -> sc_l cf <= sw_left d0 + N.of_nat (named_so_far id (spraying cf cs))).
  { intros d0 Hd0. eapply IH; try done. intros p ps clas d1 d2 ss del Hin. apply (Hq p ps clas d1 d2 ss del). apply elem_of_app. by left. }
  destruct c as [p ps clas|nf|]; cbn in Es.
  - destruct (h0 !! p_id p) as [d0|] eqn:Ed.
    + destruct (saw_query cf clas p d0 ps [] false) as [[d1 [ss del]]|] eqn:E; [|done]. injection Es as <- <-.
      destruct (decide (p_id p = id)) as [Hid|Hne]; [|rewrite lookup_insert_ne in Hd by done; apply Hold in Hd; lia].
      rewrite Hid, lookup_insert in Hd. injection Hd as ->. rewrite Hid in Ed. apply Hold in Ed.
      assert (HL := Hq p ps clas d0 d ss del ltac:(apply elem_of_app; right; left) Hid E).
      unfold named_so_far at 2. cbn. rewrite decide_True by done. cbn. lia.
    + injection Es as <- <-. apply Hold in Hd. lia.
  - injection Es as <- <-. destruct nf as [j m| |b|j m| |]; cbn in Hd; try (apply Hold in Hd; lia).
    + destruct (h0 !! j) as [d0|] eqn:Ed; [|apply Hold in Hd; lia]. destruct (decide (j = id)) as [->|Hne]; [|rewrite lookup_insert_ne in Hd by done; apply Hold in Hd; lia].
      rewrite lookup_insert in Hd. injection Hd as <-. cbn. apply Hold in Ed. lia.
    + unfold saw_new in Hd. destruct (decide (bid b = id)) as [<-|Hne]; [|rewrite lookup_insert_ne in Hd by done; apply Hold in Hd; lia].
      rewrite lookup_insert in Hd. injection Hd as <-. rewrite Hpre. cbn. lia.
    + unfold saw_new in Hd. destruct (decide (j = id)) as [->|Hne]; [|rewrite lookup_insert_ne in Hd by done; apply Hold in Hd; lia].
      rewrite lookup_insert in Hd. injection Hd as <-. rewrite Hpre. cbn. lia.
  - injection Es as <- <-. apply Hold in Hd. lia.
Qed.
(** an announced bundle is known *)
Lemma saw_known cf cs b : forall h, astate (saw_step cf) (Some ∅) cs = Some h -> RNotify (IncomingBundle b) ∈ cs -> is_Some (h !! bid b).
Proof.
  induction cs as [|c cs IH] using rev_ind; intros h Hs Hin; [by apply elem_of_nil in Hin|].
  destruct (astate_alive_prefix _ _ _ _ _ Hs) as [h0 Hh0]. rewrite astate_app, Hh0 in Hs. cbn in Hs.
  destruct (saw_step cf h0 c) as [[h1 a]|] eqn:Es; [|done]. cbn in Hs. injection Hs as <-.
  apply elem_of_app in Hin as [Hin|<-%elem_of_list_singleton].
  - specialize (IH _ Hh0 Hin). destruct c as [p ps clas|nf|]; cbn in Es.
    + destruct (h0 !! p_id p) as [d0|] eqn:Ed; [|by injection Es as <- <-].
      destruct (saw_query _ _ _ _ _ _ _) as [[d1 a1]|]; [|done]. injection Es as <- <-. apply lookup_insert_is_Some'. by right.
    + injection Es as <- <-. destruct nf as [j m| |b'|j m| |]; cbn; try done.
      * destruct (h0 !! j); [|done]. apply lookup_insert_is_Some'. by right.
      * apply lookup_insert_is_Some'. by right.
      * apply lookup_insert_is_Some'. by right.
    + by injection Es as <- <-.
  - cbn in Es. injection Es as <- <-. unfold saw_new. rewrite lookup_insert. by eexists.
Qed.
Lemma joint_before l tr : joint l tr -> forall l1 p ps clas a l2, l = l1 ++ (RSender p ps clas, a) :: l2 ->
  exists t1 i t2, tr = t1 ++ EStep i (LAct (Route p) a) :: t2 /\ joint l1 t1.
Proof.
  induction 1 as [|l tr j n' a r' Hj IH|l tr j p' ps' clas' a Hj IH|l tr c a Hj IH Hc|l tr e Hj IH He]; intros l1 p ps clas a0 l2 E.
  - by destruct l1.
  - destruct (snoc_split _ _ _ _ _ E) as [(-> & Ee & ->)|(l2' & -> & E')]; [done|].
    destruct (IH _ _ _ _ _ _ E') as (t1 & i & t2 & -> & Ht). exists t1, i, (t2 ++ [EStep j (LAct (Notify n') r')]). by rewrite <- app_assoc.
  - destruct (snoc_split _ _ _ _ _ E) as [(-> & Ee & ->)|(l2' & -> & E')].
    + injection Ee as -> _ _ ->. by exists tr, j, [].
    + destruct (IH _ _ _ _ _ _ E') as (t1 & i & t2 & -> & Ht). exists t1, i, (t2 ++ [EStep j (LAct (Route p') a)]). by rewrite <- app_assoc.
  - destruct (snoc_split _ _ _ _ _ E) as [(-> & Ee & ->)|(l2' & -> & E')]; [injection Ee as -> _; done|]. by eapply IH.
  - destruct (IH _ _ _ _ _ _ E) as (t1 & i & t2 & -> & Ht). exists t1, i, (t2 ++ [e]). by rewrite <- app_assoc.
Qed.
Section proofs.
Context (node_of : nat -> settings) (parse_record : list N -> option arecord)
        (lifetime_exceeded : N -> bundle -> bool).
Notation net_run := (net_run node_of parse_record lifetime_exceeded).
(** who is named, and to whom no transmission fails, gets the bundle *)
Lemma named_arrives tr ms x0 x y b n l e : net_run tr ms -> only_one tr x0 b -> no_flagged b -> all_ended (ms x) -> all_ended (ms y) -> y <> x0 ->
  n <> "" -> joint l (proj x tr) -> e ∈ l -> hands e (bid b) n -> (forall z, z ∈ l -> ~ fails z (bid b) n) ->
  (forall i s b', does (proj x tr) i (Transfer s b') true -> bid b' = bid b -> called s = n -> Arrives x y b' ∈ tr) ->
  (exists i, took_in (proj y tr) i b) \/ mishap (proj x tr) b \/ mishap (proj y tr) b.
Proof.
  intros Hn Hu Hf He Hey Hy Hne Hj Hel (p2 & ps2 & clas2 & ss2 & del2 & s & -> & Hid2 & Hs & Hsn) Hl2 Harr.
  assert (Hr := net_proj _ _ _ _ _ Hn x). apply elem_of_list_split in Hel as (l1 & l2 & E).
  destruct (joint_at _ _ Hj _ _ _ _ _ _ E) as (t1 & i & t2 & Et & Hnot). assert (Hr2 := Hr). rewrite Et in Hr2.
  assert (Hi : over (ms x) i).
  { destruct (run_task_step _ _ _ _ _ _ _ _ _ _ Hr2) as (k & q' & _ & Hk1 & _).
    assert (Hk : tasks (proj x tr) !! i = Some k) by (rewrite Et, tasks_app; by apply lookup_app_l_Some).
    rewrite <- (run_tasks _ _ _ _ _ _ _ Hr), list_lookup_fmap in Hk. destruct (m_tasks (ms x) !! i) as [[k' q2]|] eqn:Em; [|done].
    exists k', q2. split; [done|]. by eapply He. }
  assert (Hmono : forall o r, does t2 i o r -> does (proj x tr) i o r).
  { intros o r H. rewrite Et. apply elem_of_app. right. by right. }
  assert (Hcn : called s = n) by exact Hsn.
  destruct (named_told _ _ _ _ _ _ _ _ _ _ _ _ s Hr2 Hi Hs) as [(b' & r & Ht & Hb & Hfail)|Hh].
  - rewrite Hid2 in Hb, Hfail. destruct r.
    + assert (Ha : Arrives x y b' ∈ tr) by (eapply Harr; [by apply Hmono|done|done]).
      destruct (comes_in _ _ _ _ _ _ _ _ _ _ Hn Hey Hu Hy Hf Ha Hb) as [H|H]; auto.
    + exfalso. assert (Hnode : eid_node (sd_hop s) = Some n) by (unfold called in Hcn; destruct (eid_node (sd_hop s)); [congruence|by subst]).
      specialize (Hfail eq_refl _ Hnode). destruct (Hnot _ _ _ Hfail) as [a' Ha']. eapply (Hl2 (_, a')); [rewrite E; apply elem_of_app; right; by right|done].
  - right. left. rewrite Hid2 in Hh. destruct Hh as [H|H|b' z H1 H2 H3].
    + eapply is_gone. by apply Hmono.
    + eapply may_not_leave. rewrite Et. rewrite (cons_middle _ t1 t2), app_assoc. apply over_limit_mono. exact H.
    + eapply bad_prev; [by apply Hmono|done|done].
Qed.
(** the agent, asked when [y] is there, named [y] *)
Lemma sees_passes cond cf cs n tr ms x0 x y b j p a : net_run tr ms -> only_one tr x0 b -> no_flagged b -> sees cond cf cs n tr x y b ->
  all_ended (ms x) -> all_ended (ms y) -> y <> x0 -> does (proj x tr) j (Route p) a -> p_id p = bid b ->
  (forall p ps clas d d' ss del, RSender p ps clas ∈ cs -> p_id p = bid b -> p_dst p = b_dst b -> saw_query cf clas p d ps [] false = Some (d', (ss, del)) ->
     forall i, i ∈ sw_nodes d' -> i ∈ sw_nodes d \/ exists q, q ∈ ps /\ eid_node_id (pe_eid q) = Some i /\ (node_name q = n -> has n ss)) ->
  (forall cs1 p ps clas cs2 h d d' ss del q, cs = cs1 ++ RSender p ps clas :: cs2 -> p_id p = bid b -> p_dst p = b_dst b ->
     (forall p ps clas, RSender p ps clas ∈ cs -> p_id p = bid b -> p_dst p = b_dst b) ->
     astate (saw_step cf) (Some ∅) cs1 = Some h -> h !! bid b = Some d -> cond (spraying cf cs1) ps ->
     saw_query cf clas p d ps [] false = Some (d', (ss, del)) -> q ∈ ps -> node_name q = n -> is_Some (first_cla clas q) ->
     eid_node_id (pe_eid q) <> Some (sc_local cf) -> (forall i, eid_node_id (pe_eid q) = Some i -> i ∉ sw_nodes d) -> has n ss) ->
  (exists i, took_in (proj y tr) i b) \/ mishap (proj x tr) b \/ mishap (proj y tr) b.
Proof.
  intros Hn Hu Hf (Hne & Hj & Halive & Hmeet & Hnf & Harr & Hrep) He Hey Hy Hd Hp Hnodes Hname.
  assert (Hr := net_proj _ _ _ _ _ Hn x).
  assert (Hadr : forall p ps clas a, (RSender p ps clas, a) ∈ spraying cf cs -> p_id p = bid b -> a <> None /\ p_dst p = b_dst b).
  { intros p1 ps1 clas1 a1 Hin Hid. destruct (joint_route _ _ _ _ _ _ Hj Hin) as [i Hi]. split; [by eapply Halive|].
    eapply (query_addressed _ _ _ _ _ _ _ _ _ _ (b_src b) (b_dst b) Hr Hi). rewrite Hid. intros w Hw Hwid. rewrite entered_born in Hw.
    destruct (is_copy _ _ _ _ _ _ _ _ _ Hn Hu Hf Hw Hwid) as [Hpr _]. unfold primary in Hpr. by injection Hpr as _ -> -> _ _ _ _ _ _. }
  assert (Hadr' : forall p ps clas, RSender p ps clas ∈ cs -> p_id p = bid b -> p_dst p = b_dst b).
  { intros p1 ps1 clas1 Hin Hid. rewrite <- (arun_cmds (saw_step cf) (Some ∅) cs) in Hin. apply elem_of_list_fmap in Hin as ([c a1] & Ec & Hin). cbn in Ec. subst c.
    by eapply Hadr. }
  assert (Hask : exists p ps clas, RSender p ps clas ∈ cs /\ p_id p = bid b).
  { apply elem_of_list_split in Hd as (t1 & t2 & E). destruct (agent_query _ _ _ _ _ _ _ _ _ Hj E) as (c1 & ps & clas & c2 & -> & _).
    exists p, ps, clas. split; [|done]. apply elem_of_app. right. left. }
  destruct (Hmeet Hask) as (c1 & p1 & ps1 & clas1 & c2 & Ecs & Hid1 & (q & Hq & Hqn & Hqr & Hql) & Hcond).
  assert (Hl : exists a1 rest, spraying cf cs = spraying cf c1 ++ (RSender p1 ps1 clas1, a1) :: rest /\
     arun (saw_step cf) (astate (saw_step cf) (Some ∅) c1) [RSender p1 ps1 clas1] = [(RSender p1 ps1 clas1, a1)]).
  { unfold spraying. rewrite Ecs, arun_app. cbn. destruct (astate (saw_step cf) (Some ∅) c1 ≫= _) as [[h' a1]|];
      eexists _, _; (split; [reflexivity|]); done. }
  destruct Hl as (a1 & rest & El & Eone).
  destruct (Hadr p1 ps1 clas1 a1) as [Ha1 Hdst1]; [rewrite El; apply elem_of_app; right; left|done|]. destruct a1 as [[ss1 del1]|]; [|done].
  destruct (answered _ _ _ _ Eone) as (h & h' & Eh & Estep). cbn in Estep.
  (* the bundle was announced before *)
  assert (Hk : is_Some (h !! bid b)).
  { destruct (joint_before _ _ Hj _ _ _ _ _ _ El) as (t1 & i & t2 & Et & Hj1). rewrite Et in Hr.
    assert (Ha : existsb (announced (p_id p1)) t1 = true).
    { eapply route_after; [exact Hr|]. intros j' b0 st rs out Hin. rewrite Hid1. apply (Hrep j' b0 st rs). rewrite Et. apply elem_of_app. by left. }
    apply existsb_exists in Ha as (ev & Hev & (j' & w & r & -> & Hw)%announced_true). apply elem_of_list_In in Hev.
    apply elem_of_list_split in Hev as (ta & tb & ->). destruct (joint_split _ _ Hj1 _ _ _ _ _ eq_refl) as (la & a' & lb & Ela & _).
    rewrite <- Hid1, <- Hw. apply (saw_known cf c1 w); [done|]. rewrite <- (arun_cmds (saw_step cf) (Some ∅) c1).
    change (arun (saw_step cf) (Some ∅) c1) with (spraying cf c1). rewrite Ela, map_app. apply elem_of_app. right. left. }
  destruct Hk as [d Hk]. rewrite Hid1, Hk in Estep.
  destruct (saw_query cf clas1 p1 d ps1 [] false) as [[d' [ss2 del2]]|] eqn:Eq; [|done]. injection Estep as <- -> ->.
  assert (Hent : exists e, e ∈ spraying cf cs /\ hands e (bid b) n).
  { destruct (eid_node_id (pe_eid q)) as [i0|] eqn:Ei.
    - destruct (decide (i0 ∈ sw_nodes d)) as [Hin|Hnin].
      + destruct (nodes_named cf (bid b) n c1 h d Eh) with (i := i0) (q0 := q) as (e & Hel & Hh); try done.
        { intros p2 ps2 clas2 d1 d2 ss2 del2 Hin2 Hid2 HQ. assert (Hin3 : RSender p2 ps2 clas2 ∈ cs) by (rewrite Ecs; apply elem_of_app; by left).
          eapply Hnodes; try done. by eapply Hadr'. }
        exists e. split; [|done]. rewrite El. apply elem_of_app. by left.
      + exists (RSender p1 ps1 clas1, Some (ss1, del1)). split; [rewrite El; apply elem_of_app; right; left|].
        destruct (Hname c1 p1 ps1 clas1 c2 h d d' ss1 del1 q) as (s & Hs & Hsn); try done.
        { by apply reach_first. }
        { by rewrite Ei. }
        { rewrite Ei. by intros i [= <-]. }
        by exists p1, ps1, clas1, ss1, del1, s.
    - exists (RSender p1 ps1 clas1, Some (ss1, del1)). split; [rewrite El; apply elem_of_app; right; left|].
      destruct (Hname c1 p1 ps1 clas1 c2 h d d' ss1 del1 q) as (s & Hs & Hsn); try done.
      { by apply reach_first. }
      { by rewrite Ei. }
      { by rewrite Ei. }
      by exists p1, ps1, clas1, ss1, del1, s. }
  destruct Hent as (e & Hel & Hh). eapply (named_arrives tr ms x0 x y b n (spraying cf cs) e); try done.
  intros [c a'] Hz Hfl. unfold fails in Hfl. cbn in Hfl. subst c. apply Hnf. rewrite <- (arun_cmds (saw_step cf) (Some ∅) cs).
  apply elem_of_list_fmap. by eexists (_, _).
Qed.
Lemma waits_passes tr ms x0 x y b j p a : net_run tr ms -> only_one tr x0 b -> no_flagged b -> waits tr x y b ->
  all_ended (ms x) -> all_ended (ms y) -> y <> x0 -> does (proj x tr) j (Route p) a -> p_id p = bid b ->
  (exists i, took_in (proj y tr) i b) \/ mishap (proj x tr) b \/ mishap (proj y tr) b.
Proof.
  intros Hn Hu Hf (cf & cs & n & Hdst & Hsee) He Hey Hy Hd Hp. eapply (sees_passes _ _ _ _ _ _ _ _ _ _ _ _ _ Hn Hu Hf Hsee); try done.
  - intros p1 ps clas d d' ss del _ _ Hd1 HQ. rewrite <- Hd1 in Hdst. by eapply (saw_query_dest _ _ _ _ _ Hdst).
  - intros c1 p1 ps clas c2 h d d' ss del q _ _ Hd1 _ _ _ _ HQ Hq Hqn Hqf Hql Hqi. rewrite <- Hd1 in Hdst.
    destruct (saw_query_dest _ _ _ _ _ Hdst _ _ _ _ _ _ HQ) as (_ & H & _). by eapply H.
Qed.
Lemma sprays_passes tr ms x0 x y b j p a : net_run tr ms -> only_one tr x0 b -> no_flagged b -> sprays node_of tr x y b ->
  all_ended (ms x) -> all_ended (ms y) -> y <> x0 -> does (proj x tr) j (Route p) a -> p_id p = bid b ->
  (exists i, took_in (proj y tr) i b) \/ mishap (proj x tr) b \/ mishap (proj y tr) b.
Proof.
  intros Hn Hu Hf (cf & cs & n & name & sv & sv' & Hh & Hsrc & Hloc & Hno & Hsee) He Hey Hy Hd Hp.
  assert (Hpre : String.prefix (sc_local cf) (bid b) = true) by (rewrite Hh in Hloc; by eapply own_prefix_dtn).
  assert (Hq : forall p ps clas, RSender p ps clas ∈ cs -> p_id p = bid b -> p_dst p = b_dst b ->
    forall q, q ∈ ps -> is_Some (first_cla clas q) -> eid_node (p_dst p) <> Some (node_name q)).
  { intros p1 ps clas Hin Hid Hd1 q Hqi Hqf Hqd. rewrite Hd1 in Hqd. eapply Hno; try done. exists q. rewrite reach_first. done. }
  eapply (sees_passes _ _ _ _ _ _ _ _ _ _ _ _ _ Hn Hu Hf Hsee); try done.
  - intros p1 ps clas d d' ss del Hin Hid Hd1 HQ.
    destruct (saw_query_spray cf clas p1 n ps (Hq _ _ _ Hin Hid Hd1) _ _ _ _ _ _ HQ) as (_ & _ & _ & H). exact H.
  - intros c1 p1 ps clas c2 h d d' ss del q E Hid Hd1 Hall Eh Hk Hc HQ Hqi Hqn Hqf Hql Hqno.
    assert (Hin : RSender p1 ps clas ∈ cs) by (rewrite E; apply elem_of_app; right; left).
    destruct (saw_query_spray cf clas p1 n ps (Hq _ _ _ Hin Hid Hd1) _ _ _ _ _ _ HQ) as (_ & _ & H & _).
    eapply H; try done.
    assert (HL := copies_left cf (bid b) c1 Hpre h d Eh). specialize (HL ltac:(
      intros p2 ps2 clas2 d2 d3 ss2 del2 Hin2 Hid2 HQ2;
      assert (Hin3 : RSender p2 ps2 clas2 ∈ cs) by (rewrite E; apply elem_of_app; by left);
      destruct (saw_query_spray cf clas2 p2 n ps2 (Hq _ _ _ Hin3 Hid2 (Hall _ _ _ Hin3 Hid2)) _ _ _ _ _ _ HQ2) as (_ & HL2 & _); cbn in HL2; lia) Hk).
    lia.
Qed.

(** ** C163 *)
(** As C160, with epidemic routing or spray and wait on any of the hops: a bundle
    submitted at the first node of the chain is handed to the application it is
    for at the last node; or there is a node of the chain where something went
    wrong, the source is not registered at the first node, or the destination is
    not at the last one. *)
Theorem C163_spray_and_wait_delivers : forall tr ms x0 l b i,
  net_run tr ms -> submitted (proj x0 tr) i b -> chain node_of tr ms b x0 l -> x0 ∉ l ->
  only_one tr x0 b -> bf_admin (b_flags b) = false -> ~ must_delete b -> no_flagged b -> first_block 6 b = None ->
  delivered_at tr (List.last l x0) b \/
  (exists x, x ∈ x0 :: l /\ mishap (proj x tr) b) \/
  (b_src b <> DtnNone /\ unknown_app (proj x0 tr) (b_src b)) \/
  unknown_app (proj (List.last l x0) tr) (b_dst b).
Proof.
  intros tr ms x0 l b i Hn Hi Hrt Hx0 Hu Ha Hd Hf H6.
  eapply (deliver_along node_of parse_record lifetime_exceeded (fun x y => passing node_of tr x y b)); try done.
  - intros x y j p a [Hl|[Hm|[Hw|Hs]]]; intros; [by eapply leads_passes|by eapply meets_passes|by eapply waits_passes|by eapply sprays_passes].
  - clear Hi Hx0. revert Hrt. generalize x0 as x. induction l as [|y l IH]; intros x Hrt; [exact Hrt|].
    destruct Hrt as (H1 & H2 & H3 & H4). split; [done|]. split; [done|]. split; [done|]. by apply IH.
Qed.
End proofs.
Print Assumptions C163_spray_and_wait_delivers.

(** ** A concrete case *)
(** Three nodes with spray and wait and the letter of Props_Route.v.  Node 0 has
    seven copies.  At first it can only reach z, and the transmission fails; later it
    sprays to n1, which keeps the bundle until it meets the destination. *)
Definition first163 (i : nat) : oracle := fate (Some ([hop "z"], false)) false.
Definition later163 (i : nat) : oracle :=
  match i with 0%nat => fate (Some ([hop "n1"], false)) true | _ => fate (Some ([hop "n2"], true)) true end.
Definition begun163 := nscript line (fun _ => None) (fun _ _ => false) first163 [NStart 0 (KSubmit mail); NRun 0 0; NRun 0 1] []
  (fun i => start_node [Dtn (name i) "in"] 2000000 2000).
Definition run163 := nscript line (fun _ => None) (fun _ _ => false) later163
  [NStart 0 KJanitor; NRun 0 2; NSend 0 1; NRun 1 0; NRun 1 1; NSend 1 2; NRun 2 0] (fst begun163) (snd begun163).
Lemma begun163_ok : net_run line (fun _ => None) (fun _ _ => false) (fst begun163) (snd begun163).
Proof. unfold begun163. apply nscript_run, net_init. intros i. apply start_initial. Qed.
Lemma run163_ok : net_run line (fun _ => None) (fun _ _ => false) (fst run163) (snd run163).
Proof. unfold run163. apply nscript_run, begun163_ok. Qed.
Definition near163_0 := [["z"]; ["z"; "n1"]].
Definition near163_1 := [["n0"; "n2"]].
Definition cf163 (i : nat) := SawConf 7 (if decide (i = 0%nat) then "dtn://n0/" else "dtn://n1/").
Lemma heard163_0 : spraying (cf163 0) (map fst (annotate near163_0 (proj 0 (fst run163)))) = annotate near163_0 (proj 0 (fst run163)).
Proof. by vm_compute. Qed.
Lemma heard163_1 : spraying (cf163 1) (map fst (annotate near163_1 (proj 1 (fst run163)))) = annotate near163_1 (proj 1 (fst run163)).
Proof. by vm_compute. Qed.
(** what [sees] asks for, computed: the meeting is at the command numbered [k] *)
Definition seen_at (k : nat) (cond : list (rcmd * option answer) -> list peer -> bool) (cf : saw_conf) (cs : list rcmd) (id n : string) : bool :=
  match cs !! k with
  | Some (RSender p ps clas) =>
      bool_decide (p_id p = id) && cond (spraying cf (take k cs)) ps &&
      existsb (fun q => bool_decide (node_name q = n) && match first_cla clas q with Some _ => true | None => false end &&
                        negb (bool_decide (eid_node_id (pe_eid q) = Some (sc_local cf)))) ps
  | _ => false
  end.
Definition no_reports (tr : list event) (id : string) : bool :=
  forallb (fun e => match e return bool with EStep _ (LAct (NewReport _ _ _) (Some out)) => negb (bool_decide (bid out = id)) | _ => true end) tr.
Lemma sees_ok (cond : list (rcmd * option answer) -> list peer -> Prop) condb k cf qs n tr x y b : (forall l ps, condb l ps = true -> cond l ps) -> n <> "" ->
  spraying cf (map fst (annotate qs (proj x tr))) = annotate qs (proj x tr) ->
  forallb (fun a => match snd a with Some _ => true | None => false end) (asks_of (proj x tr)) = true ->
  seen_at k condb cf (map fst (annotate qs (proj x tr))) (bid b) n = true ->
  forallb (fun c => match c with RNotify (SendingFailed i m) => negb (bool_decide (i = bid b) && bool_decide (m = n)) | _ => true end) (map fst (annotate qs (proj x tr))) = true ->
  good_sends tr x y n = true -> no_reports (proj x tr) (bid b) = true -> sees cond cf (map fst (annotate qs (proj x tr))) n tr x y b.
Proof.
  intros Hcond Hne Hag Hal Hsee Hnf Hgs Hrep.
  split; [done|]. split; [rewrite Hag; apply annotate_joint|]. split; [|split; [|split; [|split]]].
  - intros i p' a H _ ->. apply asks_spec in H. rewrite forallb_forall in Hal. apply elem_of_list_In in H. by specialize (Hal _ H).
  - intros _. unfold seen_at in Hsee. destruct (map fst (annotate qs (proj x tr)) !! k) as [[p ps clas| |]|] eqn:Ek; try done.
    apply andb_true_iff in Hsee as [[H1%bool_decide_eq_true H2]%andb_true_iff H3].
    exists (take k (map fst (annotate qs (proj x tr)))), p, ps, clas, (drop (S k) (map fst (annotate qs (proj x tr)))).
    split; [symmetry; by apply take_drop_middle|]. split; [done|]. split; [|by apply Hcond].
    apply existsb_exists in H3 as (q & Hq & [[Hn%bool_decide_eq_true Hc]%andb_true_iff Hl]%andb_true_iff). apply negb_true_iff, bool_decide_eq_false in Hl.
    exists q. split; [by apply elem_of_list_In|]. split; [done|]. split; [|done]. apply reach_first. destruct (first_cla clas q); [by eexists|done].
  - intros Hin. rewrite forallb_forall in Hnf. apply elem_of_list_In in Hin. specialize (Hnf _ Hin). cbn in Hnf. by rewrite !bool_decide_true in Hnf.
  - intros i s b' H _ Hc. unfold good_sends in Hgs. rewrite forallb_forall in Hgs. unfold does in H. apply elem_of_list_In in H.
    specialize (Hgs _ H). cbn in Hgs. rewrite bool_decide_true in Hgs by done. apply bool_decide_eq_true in Hgs. by apply arrives_moves.
  - intros i b0 st rs out H Hid. unfold no_reports in Hrep. rewrite forallb_forall in Hrep. apply elem_of_list_In in H.
    specialize (Hrep _ H). cbn in Hrep. by rewrite bool_decide_true in Hrep.
Qed.
Definition none_called (d : string) (cs : list rcmd) : bool := forallb (fun q => negb (bool_decide (d ∈ map node_name (fst q)))) (queries cs).
Lemma none_called_spec d cs : none_called d cs = true -> forall p ps clas, RSender p ps clas ∈ cs -> ~ reach_node ps clas d.
Proof.
  intros H p ps clas Hin (q & Hq & Hqn & _).
  assert (Hi : (ps, clas) ∈ queries cs) by (apply elem_of_list_omap; by exists (RSender p ps clas)).
  unfold none_called in H. rewrite forallb_forall in H. apply elem_of_list_In in Hi. specialize (H _ Hi). cbn [fst] in H.
  rewrite bool_decide_true in H; [done|]. apply elem_of_list_fmap. by exists q.
Qed.
Lemma run163_sees0 : sees (fun l ps => N.of_nat (named_so_far (bid mail) l + length ps) < sc_l (cf163 0)) (cf163 0)
  (map fst (annotate near163_0 (proj 0 (fst run163)))) "n1" (fst run163) 0 1 mail.
Proof.
  apply (sees_ok _ (fun l ps => N.of_nat (named_so_far (bid mail) l + length ps) <? sc_l (cf163 0)) 3).
  1: by intros l ps H%N.ltb_lt. 1: discriminate. 1: exact heard163_0. all: vm_compute; reflexivity.
Qed.
Lemma run163_sprays : sprays line (fst run163) 0 1 mail.
Proof.
  exists (cf163 0), (map fst (annotate near163_0 (proj 0 (fst run163)))), "n1", "n0", "", "in".
  split; [reflexivity|]. split; [reflexivity|]. split; [reflexivity|]. split; [|exact run163_sees0].
  assert (H : none_called "n2" (map fst (annotate near163_0 (proj 0 (fst run163)))) = true) by (vm_compute; reflexivity).
  intros p ps clas d Hin _ Hd. assert (Hd' : d = "n2") by (cbn in Hd; congruence). rewrite Hd'. exact (none_called_spec _ _ H _ _ _ Hin).
Qed.
Lemma run163_waits : waits (fst run163) 1 2 mail.
Proof.
  exists (cf163 1), (map fst (annotate near163_1 (proj 1 (fst run163)))), "n2". split; [reflexivity|].
  apply (sees_ok _ (fun _ _ => true) 1).
  1: done. 1: discriminate. 1: exact heard163_1. all: vm_compute; reflexivity.
Qed.
Lemma run163_one : only_one (fst run163) 0 mail.
Proof.
  intros j b' Hm _. apply mades_spec in Hm. replace (mades (fst run163)) with [(0%nat, mail)] in Hm by (by vm_compute).
  apply elem_of_list_singleton in Hm. by injection Hm as -> ->.
Qed.
Lemma run163_ended x : (x < 3)%nat -> all_ended (snd run163 x).
Proof. intros H. destruct x as [|[|[|x]]]; [apply all_ended_ok; vm_compute; reflexivity..|lia]. Qed.
Lemma run163_delivered : delivered_at (fst run163) 2 mail.
Proof. apply delivered_ok. vm_compute. reflexivity. Qed.
Example C163_case :
  net_run line (fun _ => None) (fun _ _ => false) (fst run163) (snd run163) /\
  submitted (proj 0 (fst run163)) 0 mail /\
  chain line (fst run163) (snd run163) mail 0 [1%nat; 2%nat] /\ first_block 6 mail = None /\
  only_one (fst run163) 0 mail /\
  number (transmitted false (bid mail) "z") (proj 0 (fst run163)) = 1 /\
  number (transmitted true (bid mail) "n0") (proj 1 (fst run163)) = 0 /\
  delivered_at (fst run163) 2 mail.
Proof.
  split; [exact run163_ok|]. split; [by vm_compute|].
  split; [|split; [reflexivity|split; [exact run163_one|split; [by vm_compute|split; [by vm_compute|exact run163_delivered]]]]].
  split; [apply run163_ended; lia|]. split; [by vm_compute|]. split; [right; right; right; exact run163_sprays|].
  split; [apply run163_ended; lia|]. split; [by vm_compute|]. split; [right; right; left; exact run163_waits|].
  split; [apply run163_ended; lia|exact I].
Qed.
