(** Proofs about a node together with its routing agent: what the tasks spend
    (PipelineCount.v) is what the agent granted. *)
From stdpp Require Import prelude strings pretty gmap sorting.
From Coq Require Import NArith ZArith Lia ZifyBool ZifyN ZifyNat.
From Verif Require Import Core StoreMem Peers Routing RoutingProofs SawProofs Pipeline PipelineBase PipelineProofs PipelineInv PipelineCount NodeRouting.
Open Scope Z_scope.
Notation entry := (rcmd * option answer)%type.

(** ** The agent's books *)
Definition lsum (f : entry -> Z) (l : list entry) : Z := zsum (map f l).
Lemma lsum_app f a b : lsum f (a ++ b) = lsum f a + lsum f b.
Proof. unfold lsum. by rewrite map_app, zsum_app. Qed.
Lemma lsum_cons f x l : lsum f (x :: l) = f x + lsum f l.
Proof. done. Qed.
Lemma lsum_one f x : lsum f [x] = f x.
Proof. unfold lsum. cbn. lia. Qed.
Lemma lsum_ext f g l : (forall x, x ∈ l -> f x = g x) -> lsum f l = lsum g l.
Proof.
  induction l as [|x l IH]; intros H; [done|]. rewrite !lsum_cons, (H x), IH; [done| |by left].
  intros y Hy. apply H. by right.
Qed.
Lemma lsum_le f g l : (forall x, x ∈ l -> f x <= g x) -> lsum f l <= lsum g l.
Proof.
  induction l as [|x l IH]; intros H; [done|]. rewrite !lsum_cons. assert (f x <= g x) by (apply H; by left).
  assert (lsum f l <= lsum g l); [|lia]. apply IH. intros y Hy. apply H. by right.
Qed.
Section books.
Context (PN PF : string -> string -> bool).
Definition grants (e : entry) : Z :=
  match e with (RSender p _ _, Some (ss, _)) => hits PN (p_id p) ss | _ => 0 end.
Definition refunds (P : string -> string -> bool) (e : entry) : Z :=
  match fst e with RNotify (SendingFailed id n) => ind (P id n) | _ => 0 end.
Lemma grants_nonneg e : 0 <= grants e.
Proof. destruct e as [[p ps clas| |] [[ss d]|]]; cbn; try done. apply hits_nonneg. Qed.
Lemma refunds_nonneg P e : 0 <= refunds P e.
Proof. destruct e as [[|[]|] a]; cbn; try done. apply ind_nonneg. Qed.
Lemma lsum_nonneg f l : (forall x, 0 <= f x) -> 0 <= lsum f l.
Proof. intros H. induction l as [|x l IH]; [done|]. rewrite lsum_cons. specialize (H x). lia. Qed.

(** successful and failed transfers *)
Definition won (l : label) : Z :=
  match l with
  | LAct o r => match o return resp o -> Z with
                | Transfer s b => fun ok : bool => if ok then ind (PN (bid b) (node_or_empty (sd_hop s))) else 0
                | _ => fun _ => 0 end r
  | _ => 0
  end.
Definition lost (l : label) : Z :=
  match l with
  | LAct o r => match o return resp o -> Z with
                | Transfer s b => fun ok : bool => if ok then 0 else ind (PF (bid b) (node_or_empty (sd_hop s)))
                | _ => fun _ => 0 end r
  | _ => 0
  end.
Lemma joint_books l tr : joint l tr ->
  wsum (spend PN PF) tr = wsum won tr - wsum lost tr + lsum (refunds PN) l + lsum (refunds PF) l - lsum grants l.
Proof.
  induction 1 as [|l tr i n a r _ IH|l tr i p ps clas a _ IH|l tr c a _ IH Hc|l tr e _ IH He].
  - done.
  - rewrite !wsum_snoc, !lsum_app, !lsum_one, IH. cbn. destruct n; cbn; lia.
  - rewrite !wsum_snoc, !lsum_app, !lsum_one, IH. cbn. destruct a as [[ss d]|]; cbn; lia.
  - rewrite !lsum_app, !lsum_one, IH. destruct c as [|[]|]; cbn in *; done || lia.
  - rewrite !wsum_snoc, IH. destruct e as [| | | | | |i [o r| |]]; cbn; try lia. destruct o; cbn in *; try lia; try done. destruct r; lia.
Qed.
End books.

(** ** Epidemic routing *)
Definition just (id n : string) (i x : string) : bool := bool_decide (i = id) && bool_decide (x = n).
Definition nobody (i x : string) : bool := false.
Lemma just_true id n i x : just id n i x = true <-> i = id /\ x = n.
Proof. unfold just. rewrite andb_true_iff, !bool_decide_eq_true. done. Qed.
Lemma hits_just_in id n i ss : 0 < hits (just id n) i ss -> i = id /\ exists s, s ∈ ss /\ node_or_empty (sd_hop s) = n.
Proof.
  induction ss as [|s ss IH]; [done|]. change (hits (just id n) i (s :: ss)) with (ind (just id n i (node_or_empty (sd_hop s))) + hits (just id n) i ss).
  intros H. destruct (just id n i (node_or_empty (sd_hop s))) eqn:E.
  - apply just_true in E as [-> E]. split; [done|]. exists s. split; [by left|done].
  - cbn [ind] in H. destruct IH as (-> & s' & ? & ?); [lia|]. split; [done|]. exists s'. split; [by right|done].
Qed.
Lemma hits_just_one id n i ss : NoDup (map (fun s => node_or_empty (sd_hop s)) ss) -> hits (just id n) i ss <= 1.
Proof.
  induction ss as [|s ss IH]; cbn [map]; intros Hnd; [cbn; lia|]. apply NoDup_cons in Hnd as [Hn Hnd]. specialize (IH Hnd).
  change (ind (just id n i (node_or_empty (sd_hop s))) + hits (just id n) i ss <= 1).
  destruct (just id n i (node_or_empty (sd_hop s))) eqn:E; cbn [ind]; [|lia]. apply just_true in E as [-> E].
  assert (H0 := hits_nonneg (just id n) id ss). destruct (decide (0 < hits (just id n) id ss)) as [Hp|]; [|lia].
  apply hits_just_in in Hp as (_ & s' & Hs' & Hn'). exfalso. apply Hn. apply elem_of_list_fmap. exists s'. split; [congruence|done].
Qed.
Lemma books_dead {S} (step : S -> rcmd -> option (S * option answer)) PN cs : lsum (grants PN) (arun step None cs) = 0.
Proof. induction cs as [|c cs IH]; [done|]. cbn [arun mbind option_bind]. rewrite lsum_cons, IH. by destruct c. Qed.
Lemma e_books id n cs : forall h,
  lsum (grants (just id n)) (arun e_step (Some h) cs) - lsum (refunds (just id n)) (arun e_step (Some h) cs)
    <= 1 - ind (e_contains h id n).
Proof.
  induction cs as [|c cs IH]; intros h; [cbn; destruct (e_contains h id n); cbn; lia|].
  cbn [arun mbind option_bind]. destruct (e_step h c) as [[h' a]|] eqn:Es.
  2:{ rewrite !lsum_cons, books_dead. assert (H1 := lsum_nonneg (refunds (just id n)) (arun e_step None cs) (refunds_nonneg _)).
      assert (H2 := refunds_nonneg (just id n) (c, None)). assert (H3 : grants (just id n) (c, None) = 0) by (by destruct c).
      rewrite H3. destruct (e_contains h id n); cbn [ind]; lia. }
  rewrite !lsum_cons. specialize (IH h').
  cut (grants (just id n) (c, a) - refunds (just id n) (c, a) + ind (e_contains h id n) <= ind (e_contains h' id n)); [lia|].
  assert (Hr := refunds_nonneg (just id n) (c, a)). assert (Hg := grants_nonneg (just id n) (c, a)).
  destruct (decide (0 < grants (just id n) (c, a))) as [Hp|Hp].
  - destruct c as [p ps clas|nf|cmd f]; [|by destruct nf|done]. destruct a as [[ss del]|]; [|done]. cbn [grants] in *.
    destruct (hits_just_in _ _ _ _ Hp) as (Hid & s & Hs & Hn).
    destruct (e_step_hands _ _ _ _ id n Es) as [H1 H2]; [exists p, ps, clas, ss, del, s; done|]. rewrite H1, H2. cbn [ind].
    assert (hits (just id n) (p_id p) ss <= 1); [|lia]. apply hits_just_one. cbn in Es.
    destruct (e_query clas p h ps []) as [[h2 [ss2 del2]]|] eqn:E; [|done]. injection Es as <- -> ->.
    eapply e_query_answer; [exact E|by intros ? ?%elem_of_nil|apply NoDup_nil_2].
  - destruct (e_contains h id n) eqn:Ec; cbn [ind]; [|destruct (e_contains h' id n); cbn [ind]; lia].
    destruct (decide (0 < refunds (just id n) (c, a))) as [Hq|Hq]; [destruct (e_contains h' id n); cbn [ind]; unfold refunds in *; cbn in Hq |- *|].
    + destruct c as [|[]|]; cbn in *; try lia.
    + destruct c as [|[]|]; cbn in *; try lia.
    + rewrite (e_step_keeps _ _ _ _ id n Es Ec); cbn [ind]; [lia|]. intros ->. cbn in Hq. unfold just in Hq. rewrite !bool_decide_true in Hq by done. cbn in Hq. lia.
Qed.

(** ** Spray and wait *)
Definition others (id : string) (dst : eid) (i x : string) : bool := bool_decide (i = id) && negb (bool_decide (eid_node dst = Some x)).
Definition final (id : string) (dst : eid) (i x : string) : bool := bool_decide (i = id) && bool_decide (eid_node dst = Some x).
Lemma hits_len PN i ss : hits PN i ss <= Z.of_nat (length ss).
Proof.
  induction ss as [|s ss IH]; [done|]. change (hits PN i (s :: ss)) with (ind (PN i (node_or_empty (sd_hop s))) + hits PN i ss).
  cbn [length]. destruct (PN i _); cbn [ind]; lia.
Qed.
Lemma hits_zero PN i ss : (forall s, s ∈ ss -> PN i (node_or_empty (sd_hop s)) = false) -> hits PN i ss = 0.
Proof.
  induction ss as [|s ss IH]; intros H; [done|]. change (hits PN i (s :: ss)) with (ind (PN i (node_or_empty (sd_hop s))) + hits PN i ss).
  rewrite IH, (H s); [done|by left|]. intros s' Hs'. apply H. by right.
Qed.
Lemma grants_relays id dst l :
  (forall p ps clas ss, (RSender p ps clas, Some (ss, true)) ∈ l -> p_id p = id ->
     exists s, ss = [s] /\ eid_node dst = Some (node_or_empty (sd_hop s))) ->
  lsum (grants (others id dst)) l <= Z.of_nat (length (relays id l)).
Proof.
  induction l as [|e l IH]; intros H; [done|].
  assert (IH' : lsum (grants (others id dst)) l <= Z.of_nat (length (relays id l))).
  { apply IH. intros p ps clas ss Hin. apply (H p ps clas ss). by right. }
  rewrite lsum_cons. change (relays id (e :: l)) with (relays_of id e ++ relays id l). rewrite app_length.
  assert (grants (others id dst) e <= Z.of_nat (length (relays_of id e))); [|lia].
  destruct e as [[p ps clas| |] [[ss del]|]]; try done. cbn [grants relays_of].
  destruct (decide (p_id p = id)) as [Hid|Hid].
  - destruct del.
    + destruct (H p ps clas ss) as (s & -> & Hs); [by left|done|]. rewrite hits_zero; [done|].
      intros s' ->%elem_of_list_singleton. unfold others. rewrite Hs, (bool_decide_true (Some _ = Some _)) by done. by rewrite andb_false_r.
    + rewrite Hid. apply hits_len.
  - rewrite hits_zero; [lia|]. intros s _. unfold others. by rewrite bool_decide_false.
Qed.
Lemma refunds_count id dst (l : list entry) :
  lsum (refunds (others id dst)) l + lsum (refunds (final id dst)) l = Z.of_N (count_failures id (map fst l)).
Proof.
  induction l as [|[c a] l IH]; [done|]. rewrite !lsum_cons. cbn [map fst].
  destruct c as [|[i n| | | | |]|]; try exact IH. cbn [refunds fst count_failures]. unfold others, final in *.
  destruct (decide (i = id)) as [->|Hne].
  - rewrite (bool_decide_true (id = id)) by done. cbn [andb]. rewrite N2Z.inj_add, <- IH. destruct (bool_decide (eid_node dst = Some n)); cbn; lia.
  - rewrite (bool_decide_false (i = id)) by done. cbn [andb ind]. lia.
Qed.
(** announcements *)
Definition news (id : string) (e : entry) : Z :=
  match fst e with
  | RNotify (IncomingBundle b) => ind (bool_decide (bid b = id))
  | RNotify (IncomingNoPrev i _) => ind (bool_decide (i = id))
  | _ => 0
  end.
Lemma news_announces id c (a : option answer) : news id (c, a) = 0 \/ (news id (c, a) = 1 /\ announces c id).
Proof.
  unfold news. cbn. destruct c as [|[| |b|i n| |]|]; try (by left); case_bool_decide; cbn; auto.
Qed.
Lemma announces_news id c (a : option answer) : announces c id -> news id (c, a) = 1.
Proof. destruct c as [|[| |b|i n| |]|]; cbn; try done; intros ->; cbn; by rewrite bool_decide_true. Qed.
Lemma news_nonneg id e : 0 <= news id e.
Proof. destruct e as [c a]. destruct (news_announces id c a) as [->|[-> _]]; lia. Qed.
Lemma joint_news id l tr : joint l tr -> lsum (news id) l = wsum (tells id) tr.
Proof.
  induction 1 as [|l tr i n a r _ IH|l tr i p ps clas a _ IH|l tr c a _ IH Hc|l tr e _ IH He].
  - done.
  - rewrite wsum_snoc, lsum_app, lsum_one, IH. cbn. destruct n; cbn; lia.
  - rewrite wsum_snoc, lsum_app, lsum_one, IH. cbn. lia.
  - rewrite lsum_app, lsum_one, IH. destruct c as [|[]|]; cbn in *; done || lia.
  - rewrite wsum_snoc, IH. destruct e as [| | | | | |i [o r| |]]; cbn; try lia. destruct o; cbn in *; try lia; try done.
Qed.
Lemma news_once id l : lsum (news id) l <= 1 ->
  (forall c, c ∈ map fst l -> ~ announces c id) \/
  exists cs1 c cs2, map fst l = cs1 ++ c :: cs2 /\ announces c id /\ forall x, x ∈ cs1 ++ cs2 -> ~ announces x id.
Proof.
  induction l as [|[c a] l IH]; intros H; [left; by intros c ?%elem_of_nil|]. rewrite lsum_cons in H.
  assert (Hl := lsum_nonneg (news id) l (news_nonneg id)).
  assert (Hz : lsum (news id) l <= 0 -> forall x, x ∈ map fst l -> ~ announces x id).
  { clear. induction l as [|[c a] l IH]; intros H x; [by intros ?%elem_of_nil|]. rewrite lsum_cons in H.
    assert (Hl := lsum_nonneg (news id) l (news_nonneg id)). assert (Hc := news_nonneg id (c, a)). cbn [map fst].
    intros [->|Hx]%elem_of_cons Ha; [apply (announces_news id c a) in Ha; lia|]. revert Hx Ha. apply IH. lia. }
  destruct (news_announces id c a) as [Hc|[Hc Ha]]; rewrite Hc in H.
  - assert (Hnc : ~ announces c id) by (intros Ha; apply (announces_news id c a) in Ha; lia).
    destruct IH as [IH|(cs1 & c0 & cs2 & E & H0 & H1)]; [lia| |].
    + left. cbn [map fst]. intros x [->|Hx]%elem_of_cons; [done|by apply IH].
    + right. exists (c :: cs1), c0, cs2. cbn [map fst app]. rewrite E. split; [done|]. split; [done|].
      intros x [->|Hx]%elem_of_cons; [done|by apply H1].
  - right. exists [], c, (map fst l). split; [done|]. split; [done|]. cbn [app]. apply Hz. lia.
Qed.
Lemma count_failures_app id a b : count_failures id (a ++ b) = (count_failures id a + count_failures id b)%N.
Proof. induction a as [|c a IH]; [done|]. cbn [app count_failures]. destruct c as [|[]|]; rewrite IH; try done; lia. Qed.

Section runs.
Context (host : eid) (gen_reports parallel : bool) (parse_record : list N -> option arecord)
        (lifetime_exceeded : N -> bundle -> bool).
Notation run := (run host gen_reports parallel parse_record lifetime_exceeded).
Theorem epidemic_won tr m cs id n : run tr m -> joint (arun e_step (Some ∅) cs) tr -> wsum (won (just id n)) tr <= 1.
Proof.
  intros Hr Hj. assert (H1 := spent _ _ _ _ _ (just id n) nobody tr m Hr). rewrite (joint_books _ _ _ _ Hj) in H1.
  assert (H2 := e_books id n cs ∅). assert (H3 := lsum_nonneg (refunds nobody) (arun e_step (Some ∅) cs) (refunds_nonneg _)).
  assert (H4 : wsum (lost nobody) tr = 0).
  { clear. induction tr as [|e tr IH] using rev_ind; [done|]. rewrite wsum_snoc, IH. destruct e as [| | | | | |i [o r| |]]; try done.
    destruct o; try done. by destruct r. }
  destruct (e_contains ∅ id n); cbn in H2; lia.
Qed.

Lemma route_dst tr m i p a b : run tr m -> EStep i (LAct (Route p) a) ∈ tr ->
  (forall x, x ∈ born tr -> bid x = bid b -> x = b) -> p_id p = bid b -> p_dst p = b_dst b.
Proof.
  intros Hr (t1 & t2 & ->)%elem_of_list_split Hu Hid.
  destruct (run_safe _ _ _ _ _ I_prov t1 i _ t2 m (prov _ _ _ _) Hr) as (k & Hk & HI). cbn in HI.
  destruct (run_app_inv _ _ _ _ _ _ _ _ Hr) as [m1 Hr1].
  destruct (origin_ok _ _ _ _ _ (run_inv _ _ _ _ _ _ _ Hr1) Hk HI) as (_ & x & Hx & Hd).
  destruct Hd as (_ & Hdst & _ & _ & Hxid & _). rewrite Hdst. f_equal. apply Hu; [|congruence].
  rewrite born_app. apply elem_of_app. by left.
Qed.
Lemma joint_route l tr p ps clas a : joint l tr -> (RSender p ps clas, a) ∈ l -> exists i, EStep i (LAct (Route p) a) ∈ tr.
Proof.
  induction 1 as [|l tr i n a' r _ IH|l tr i p' ps' clas' a' _ IH|l tr c a' _ IH Hc|l tr e _ IH He]; intros Hin.
  - by apply elem_of_nil in Hin.
  - apply elem_snoc in Hin as [Hin|Hin]; [|done]. destruct (IH Hin) as [j Hj]. exists j. apply elem_of_app. by left.
  - apply elem_snoc in Hin as [Hin|Hin]; [|injection Hin as <- <- <- <-; exists i; apply elem_of_app; right; by left].
    destruct (IH Hin) as [j Hj]. exists j. apply elem_of_app. by left.
  - apply elem_snoc in Hin as [Hin|Hin]; [by apply IH|]. injection Hin as <- <-. done.
  - destruct (IH Hin) as [j Hj]. exists j. apply elem_of_app. by left.
Qed.
Lemma bearers id tr : zsum (map (bearer id) (tasks tr)) <= Z.of_nat (length (filter (fun x => bid x = id) (born tr))).
Proof.
  induction tr as [|e tr IH] using rev_ind; [done|]. rewrite tasks_app, map_app, zsum_app, born_app, filter_app, app_length.
  assert (zsum (map (bearer id) (tasks [e])) <= Z.of_nat (length (filter (fun x => bid x = id) (born [e])))); [|lia].
  destruct e as [k| | | | | |i [o r|q|]]; cbn; try lia.
  destruct k as [b|b| | | |]; cbn; try lia; unfold filter; cbn; unfold ind; destruct (decide (bid b = id)) as [E|E];
    rewrite ?(bool_decide_true (bid b = id)), ?(bool_decide_false (bid b = id)) by done; cbn; lia.
Qed.
Theorem saw_won cf tr m cs b : run tr m -> joint (arun (saw_step cf) (Some ∅) cs) tr ->
  filter (fun x => bid x = bid b) (born tr) = [b] ->
  wsum (won (others (bid b) (b_dst b))) tr <=
    Z.of_N ((if String.prefix (sc_local cf) (bid b) then sc_l cf else 1) - 1) + wsum (lost (final (bid b) (b_dst b))) tr.
Proof.
  intros Hr Hj Hb. set (l := arun (saw_step cf) (Some ∅) cs) in *.
  assert (H1 := spent _ _ _ _ _ (others (bid b) (b_dst b)) (final (bid b) (b_dst b)) tr m Hr).
  rewrite (joint_books _ _ _ _ Hj) in H1. assert (H2 := refunds_count (bid b) (b_dst b) l).
  assert (Hu : forall x, x ∈ born tr -> bid x = bid b -> x = b).
  { intros x Hx E. assert (Hx' : x ∈ filter (fun x => bid x = bid b) (born tr)) by (by apply elem_of_list_filter).
    rewrite Hb in Hx'. by apply elem_of_list_singleton in Hx'. }
  assert (H3 : lsum (grants (others (bid b) (b_dst b))) l <= Z.of_nat (length (relays (bid b) l))).
  { apply grants_relays. intros p ps clas ss Hin Hid. destruct (saw_answer _ _ _ _ _ _ _ Hin) as [_ Hdel].
    destruct (Hdel eq_refl) as (s & -> & Hs). exists s. split; [done|].
    destruct (joint_route _ _ _ _ _ _ Hj Hin) as [i Hi]. by rewrite <- (route_dst _ _ _ _ _ _ Hr Hi Hu Hid). }
  assert (H4 := told _ _ _ _ _ (bid b) tr m Hr). rewrite <- (joint_news _ _ _ Hj) in H4. fold l in H4.
  assert (H5 := bearers (bid b) tr). rewrite Hb in H5. cbn in H5.
  assert (Hcs : map fst l = cs) by apply arun_cmds.
  cut (Z.of_nat (length (relays (bid b) l)) <= Z.of_N ((if String.prefix (sc_local cf) (bid b) then sc_l cf else 1) - 1) + Z.of_N (count_failures (bid b) (map fst l))); [lia|].
  destruct (news_once (bid b) l) as [Hno|(cs1 & c & cs2 & E & Hc & Hno)]; [lia| |].
  - rewrite Hcs in Hno. destruct (saw_unknown cf (bid b) cs Hno ∅ (lookup_empty _)) as [Hz _]. fold l in Hz. rewrite Hz. cbn [length]. lia.
  - rewrite E. rewrite Hcs in E. destruct (saw_once cf (bid b) cs1 c cs2 Hc Hno) as [Hs _]. cbv zeta in Hs.
    rewrite <- E in Hs. fold l in Hs. rewrite count_failures_app.
    assert (count_failures (bid b) (c :: cs2) = count_failures (bid b) cs2) by (by destruct c as [|[]|]). lia.
Qed.
End runs.
