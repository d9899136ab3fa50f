(** Which next hops a forwarding attempt tries (for C137-C140). *)
From stdpp Require Import prelude strings pretty gmap sorting.
From Coq Require Import NArith Lia.
From Verif Require Import Core StoreMem Peers Routing RoutingProofs Pipeline PipelineBase PipelineProofs PipelineInv TransferProofs CauseProofs NodeRouting NodeRoutingProofs.
Open Scope N_scope.

Definition no_query (l : label) : Prop := match l with LAct (Route _) _ => False | _ => True end.
Lemma house_no_query l : house l -> no_query l.
Proof. by destruct l as [[]| |]. Qed.
Lemma front_no_query l : front l -> no_query l.
Proof. by destruct l as [[]| |]. Qed.
Lemma sub_no_query id b nodes l : sub id b nodes l -> no_query l.
Proof. by destruct l as [[]| |]. Qed.
Lemma no_query_in h p a : Forall no_query h -> LAct (Route p) a ∈ h -> False.
Proof. rewrite Forall_forall. intros H Hin. exact (H _ Hin). Qed.

(** ** A hop that is tried was named *)
Definition named (p : pack) (nodes : list sender) (h1 : list label) (s : sender) (b : bundle) : Prop :=
  s ∈ nodes /\ exists stored, LAct (SGet (p_id p)) (Some stored) ∈ h1 /\ same_primary b stored.
Definition I_named (h : list label) (l : label) : Prop :=
  match l with
  | LAct (Transfer s b) _ => exists h0 p nodes del h1,
      h = h0 ++ LAct (Route p) (Some (nodes, del)) :: h1 /\ Forall no_query h1 /\ named p nodes h1 s b
  | _ => True
  end.
Lemma house_named h l : house l -> I_named h l.
Proof. by destruct l as [[]| |]. Qed.

(** ** A hop that was named is tried, or there is a reason *)
(** what one sub-task does *)
Inductive creach : cprog -> list label -> cprog -> Prop :=
| cr_nil c : creach c [] c
| cr_cons c l c1 ls c2 : cstep c l c1 -> creach c1 ls c2 -> creach c (l :: ls) c2.
Lemma csteps_child cs hs cs' : csteps cs hs cs' -> forall i c', cs' !! i = Some c' ->
  exists c hi, cs !! i = Some c /\ creach c hi c' /\ forall l, l ∈ hi -> l ∈ hs.
Proof.
  induction 1 as [cs|cs j c l c1 ls cs' Hj Hc Hcs IH]; intros i c' Hi.
  { exists c', []. split; [done|]. split; [constructor|done]. }
  destruct (IH _ _ Hi) as (c2 & hi & H1 & H2 & H3). destruct (decide (j = i)) as [->|Hne].
  - rewrite list_lookup_insert in H1 by (by eapply lookup_lt_Some). injection H1 as <-. exists c, (l :: hi). split; [done|].
    split; [by eapply cr_cons|]. intros x [->|Hx]%elem_of_cons; [left|right; by apply H3].
  - rewrite list_lookup_insert_ne in H1 by done. exists c2, hi. split; [done|]. split; [done|]. intros x Hx. right. by apply H3.
Qed.
Lemma creach_act o k hs x : creach (CAct o k) hs (CDone x) -> exists r ls, hs = LAct o r :: ls /\ creach (k r) ls (CDone x).
Proof. intros H. inversion H as [|? l c1 ls ? Hs Hr]; subst. apply cstep_inv in Hs as (r & -> & ->). eauto. Qed.
(** a sub-task that has ended tried its hop, and told the agent if that failed *)
Lemma sent_told id b nodes hs cs bs : csteps (map (send_one id b) nodes) hs cs -> done_flags cs = Some bs ->
  forall s, s ∈ nodes -> exists x, LAct (Transfer s b) x ∈ hs /\
    (x = false -> forall n, eid_node (sd_hop s) = Some n -> LAct (Notify (SendingFailed id n)) tt ∈ hs).
Proof.
  intros Hcs Hd s [i Hi]%elem_of_list_lookup. unfold done_flags in Hd. apply mapM_Some in Hd.
  assert (Hlen : length cs = length nodes).
  { assert (H : length cs = length (map (send_one id b) nodes)); [|by rewrite map_length in H].
    clear Hd. induction Hcs as [|cs j c l c1 ls cs' Hj Hc Hcs IH]; [done|]. by rewrite IH, insert_length. }
  destruct (lookup_lt_is_Some_2 cs i) as [c Hc]; [rewrite Hlen; by eapply lookup_lt_Some|].
  destruct (Forall2_lookup_l _ _ _ _ _ Hd Hc) as (x & _ & E). destruct c as [y|]; [|done].
  destruct (csteps_child _ _ _ Hcs _ _ Hc) as (c0 & hi & H1 & H2 & H3).
  rewrite list_lookup_fmap, Hi in H1. injection H1 as <-.
  apply creach_act in H2 as (r & l1 & -> & H2). exists r. split; [apply H3; left|]. intros -> n En.
  apply creach_act in H2 as ([] & l2 & -> & H2). rewrite En in H2. apply creach_act in H2 as ([] & l3 & -> & _).
  apply H3. right. right. left.
Qed.
Definition aged (b : bundle) : option N :=
  block_by_type BUNDLE_AGE_BLOCK b ≫= (fun k => match k_data k with CAge a => Some a | _ => None end).
Inductive outcome (p : pack) (s : sender) (h : list label) : Prop :=
| o_tried b stored r : LAct (SGet (p_id p)) (Some stored) ∈ h -> LAct (Transfer s b) r ∈ h -> same_primary b stored ->
    (r = false -> forall n, eid_node (sd_hop s) = Some n -> LAct (Notify (SendingFailed (p_id p) n)) tt ∈ h) -> outcome p s h
| o_gone : LAct (SGet (p_id p)) None ∈ h -> outcome p s h
| o_over b : LAct (SGet (p_id p)) (Some b) ∈ h -> LAct (LifetimeOver b) true ∈ h -> outcome p s h
| o_hops b : LAct (SGet (p_id p)) (Some b) ∈ h -> hop_stage b = None -> outcome p s h
| o_prev b k : LAct (SGet (p_id p)) (Some b) ∈ h -> block_by_type PREVIOUS_NODE_BLOCK b = Some k ->
    (forall e, k_data k <> CPrev e) -> outcome p s h
| o_age b a mt now : LAct (SGet (p_id p)) (Some b) ∈ h -> aged b = Some a -> LAct (SMeta (bid b)) (Some mt) ∈ h ->
    LAct Clock now ∈ h -> b_life b * 1000 <= new_age a now (p_recv mt) -> outcome p s h.
Lemma outcome_app p s h h' : outcome p s h -> outcome p s (h ++ h').
Proof.
  assert (Hm : forall l, l ∈ h -> l ∈ h ++ h') by (intros; apply elem_of_app; by left).
  intros [b st r H1 H2 H3 H4|H|b H1 H2|b H1 H2|b k H1 H2 H3|b a mt now H1 H2 H3 H4 H5].
  - eapply o_tried; eauto.
  - apply o_gone; eauto.
  - eapply o_over; eauto.
  - eapply o_hops; eauto.
  - eapply o_prev; eauto.
  - eapply o_age; eauto.
Qed.
Definition served (h : list label) : Prop := forall h0 p nodes del h1, h = h0 ++ LAct (Route p) (Some (nodes, del)) :: h1 ->
  forall s, s ∈ nodes -> outcome p s h1.
Lemma served_app h hs : served h -> Forall no_query hs -> served (h ++ hs).
Proof.
  intros Hh Hn h0 p nodes del h1 E s Hs.
  apply app_eq_app in E as (l & [[-> E]|[-> E]]).
  - destruct l as [|x l]; cbn in E.
    + exfalso. eapply no_query_in; [exact Hn|]. rewrite <- E. left.
    + injection E as <- ->. apply outcome_app. eapply Hh; [reflexivity|done].
  - exfalso. eapply no_query_in; [exact Hn|]. rewrite E. apply elem_of_app. right. left.
Qed.
Lemma heads_eq p n d l p' n' d' l' :
  LAct (Route p) (Some (n, d)) :: l = LAct (Route p') (Some (n', d')) :: l' -> p = p' /\ n = n' /\ l = l'.
Proof.
  intros E. assert (E1 : LAct (Route p) (Some (n, d)) = LAct (Route p') (Some (n', d'))) by congruence.
  assert (E2 : l = l') by congruence. assert (E3 := lact_op _ _ _ _ E1). injection E3 as <-. apply lact_inj in E1. by injection E1 as <- <-.
Qed.
Lemma served_query h p nodes del h1 : served h -> Forall no_query h1 -> (forall s, s ∈ nodes -> outcome p s h1) ->
  served (h ++ LAct (Route p) (Some (nodes, del)) :: h1).
Proof.
  intros Hh Hn Ho h0 p' nodes' del' h1' E s Hs.
  apply app_eq_app in E as (l & [[-> E]|[-> E]]).
  - destruct l as [|x l]; cbn in E.
    + apply heads_eq in E as (-> & -> & ->). by apply Ho.
    + injection E as <- ->. change (outcome p' s (l ++ ([LAct (Route p) (Some (nodes, del))] ++ h1))). apply outcome_app. eapply Hh; [reflexivity|done].
  - destruct l as [|x l]; cbn in E.
    + apply heads_eq in E as (-> & -> & ->). by apply Ho.
    + injection E as <- ->. exfalso. eapply no_query_in; [exact Hn|]. apply elem_of_app. right. left.
Qed.

Section hops.
Context (host : eid) (gen_reports parallel : bool) (parse_record : list N -> option arecord)
        (lifetime_exceeded : N -> bundle -> bool).
Notation forward := (forward host gen_reports parse_record).
Notation forward_copy := (forward_copy host gen_reports parse_record).
Notation task_of := (task_of host gen_reports parallel parse_record).
Notation run := (run host gen_reports parallel parse_record lifetime_exceeded).

Lemma copy_named h0 p0 nodes0 del0 p nodes del b : p_id p = p_id p0 -> (forall s, s ∈ nodes -> s ∈ nodes0) ->
  safe I_named (fun _ _ => True) (h0 ++ [LAct (Route p0) (Some (nodes0, del0)); LAct (SGet (p_id p)) (Some b)])
    (forward_copy p nodes del b).
Proof.
  intros Hid Hsub. unfold Pipeline.forward_copy, handle_lifetime. apply safe_bind, safe_bind, safe_call. intros over. split; [done|].
  destruct over.
  { apply safe_bind. eapply (safe_emits house); [apply delete_fresh_house|intros; by apply house_named|done]. }
  cbn [gsafe]. apply safe_bind, hop_safe; [intros; by apply house_named|done|]. intros b1 Hb1.
  apply safe_bind, prev_safe. intros b2 Hb2.
  apply safe_bind, age_safe; [intros; by apply house_named|done|]. intros la b3 Hb3.
  assert (Hp : same_primary b3 b).
  { eapply same_primary_trans; [by eapply age_primary|]. eapply same_primary_trans; [by eapply prev_primary|by eapply hop_primary]. }
  assert (Hla : Forall no_query la).
  { unfold age_stage in Hb3. destruct (block_by_type BUNDLE_AGE_BLOCK b2) as [[? ? ? []]|]; try (destruct Hb3 as [om [-> _]]; by repeat constructor).
    - destruct Hb3 as [[-> _]|(mt & now & -> & _)]; by repeat constructor.
    - destruct Hb3 as [-> _]. constructor. }
  intros hs cs' Hcs. destruct (csteps_emits _ _ _ _ Hcs (send_all_sub (p_id p) b3 nodes)) as [H1 _]. split.
  - intros ha l hb ->. apply Forall_app in H1 as [Ha H1]. apply Forall_cons in H1 as [Hl _].
    destruct l as [[]| |]; try done. cbn in Hl. destruct Hl as [-> Hs].
    exists h0, p0, nodes0, del0, (([LAct (SGet (p_id p)) (Some b); LAct (LifetimeOver b) false] ++ la) ++ ha).
    split; [rewrite <- !app_assoc; done|]. split.
    { apply Forall_app. split; [apply Forall_app; split; [by repeat constructor|done]|]. eapply Forall_impl; [exact Ha|]. intros l. apply sub_no_query. }
    split; [by apply Hsub|]. exists b. split; [|done]. rewrite <- Hid. left.
  - intros bs _. split; [done|]. eapply (safe_emits house); [apply after_house|intros; by apply house_named|done].
Qed.
Lemma forward_named (h : list label) p : safe I_named (fun _ _ => True) h (forward p).
Proof.
  unfold Pipeline.forward. rewrite sync_forwarding. sx; try done. subst. rewrite <- app_assoc. eapply (copy_named _ (forwarding p) _ _ (forwarding p)); done.
Qed.
Lemma all_named k : safe I_named (fun _ _ => True) [] (task_of k).
Proof.
  assert (Hfront : forall h l, front l -> I_named h l) by (by intros h [[]| |]).
  destruct k; cbn [Pipeline.task_of].
  - apply safe_bind. eapply (safe_emits front); [apply receive_front|auto|done].
  - apply safe_bind. eapply (safe_emits front); [apply submit_front|auto|done].
  - apply safe_bind. eapply safe_mono; [done| |apply forward_named]. done.
  - apply janitor_safe; try done; [intros; by apply house_named|]. intros. apply forward_named.
  - unfold app_pop, remove_if_singleton. sx; done.
  - unfold user_delete. sx; done.
Qed.
Lemma tried_named t1 i s b r t2 m : run (t1 ++ EStep i (LAct (Transfer s b) r) :: t2) m ->
  exists ta p nodes del tb, t1 = ta ++ EStep i (LAct (Route p) (Some (nodes, del))) :: tb /\
    Forall no_query (did i tb) /\ s ∈ nodes /\ p_id p = bid b.
Proof.
  intros Hr. destruct (run_safe _ _ _ _ _ (fun _ => I_named) _ _ _ _ _ all_named Hr) as (k & Hk & HI).
  destruct HI as (h0 & p & nodes & del & h1 & Hd & Hn & Hs & stored & Hg & Hp).
  destruct (did_split _ _ _ _ _ Hd) as (ta & tb & -> & _ & Htb).
  exists ta, p, nodes, del, tb. split; [done|]. rewrite Htb. split; [done|]. split; [done|].
  rewrite (same_primary_bid _ _ Hp). symmetry.
  destruct (run_app_inv _ _ _ _ _ _ _ _ Hr) as [m1 Hr1].
  rewrite <- Htb in Hg. apply did_elem in Hg.
  destruct (iv_get _ _ (run_inv _ _ _ _ _ _ _ Hr1) i (p_id p) stored) as [E _]; [|done].
  apply elem_of_app. right. by right.
Qed.

(** ** Coverage *)
Lemma copy_served h p0 nodes0 del0 p nodes del b (Q := fun h' : list label => served h') :
  served h -> p_id p = p_id p0 -> (forall s, s ∈ nodes0 -> s ∈ nodes) ->
  gsafe (fun _ _ => True) (fun h' _ => Q h') Q (h ++ [LAct (Route p0) (Some (nodes0, del0)); LAct (SGet (p_id p)) (Some b)])
    (forward_copy p nodes del b).
Proof.
  intros Hh Hid Hsub. unfold Pipeline.forward_copy, handle_lifetime. rewrite Hid.
  set (g := LAct (SGet (p_id p0)) (Some b)). set (q := LAct (Route p0) (Some (nodes0, del0))).
  assert (HQ : forall h1, Forall no_query h1 -> (forall s, s ∈ nodes0 -> outcome p0 s ([g] ++ h1)) -> Q ((h ++ [q; g]) ++ h1)).
  { intros h1 Hn Ho. unfold Q. rewrite <- app_assoc. cbn [app]. apply served_query; [done|by constructor|done]. }
  assert (Hhouse : forall hs, Forall house hs -> Forall no_query hs) by (intros hs H; exact (Forall_impl _ _ _ H house_no_query)).
  assert (Hg : forall h1, g ∈ [g] ++ h1) by (intros; left).
  apply safe_bind, safe_bind, safe_call. intros over. split; [done|].
  destruct over.
  { apply safe_bind. eapply (gsafe_emits house); [apply delete_fresh_house|done|..]; intros hs; intros; cbn [gsafe bind];
      rewrite <- (app_assoc _ [_] hs); (apply HQ; [constructor; [done|by apply Hhouse]|]);
      intros s Hs; (eapply o_over; [apply Hg|right; left]). }
  cbn [gsafe bind].
  set (lv := LAct (LifetimeOver b) false).
  unfold handle_hop_count. apply safe_bind.
  assert (Htail : forall b1 b2, same_primary b1 b -> (block_by_type BUNDLE_AGE_BLOCK b1 = block_by_type BUNDLE_AGE_BLOCK b) -> prev_stage host b1 = Some b2 ->
    gsafe (fun _ _ => True) (fun h' _ => Q h') Q ((h ++ [q; g]) ++ [lv])
    (let* ob := handle_age gen_reports b2 in
     match ob with None => Ret false | Some b3 => Par (map (send_one (p_id p0) b3) nodes) (after_transfers gen_reports parse_record p b3 del) end)).
  { intros b1 b2 Hp1 Ha1 Hb2. assert (Hab : block_by_type BUNDLE_AGE_BLOCK b2 = block_by_type BUNDLE_AGE_BLOCK b).
    { rewrite <- Ha1. by apply (prev_other host). }
    assert (Hp2 : same_primary b2 b) by (eapply same_primary_trans; [by eapply prev_primary|done]). clear Hb2.
    assert (Hsend : forall la b3, Forall no_query la -> same_primary b3 b -> gsafe (fun _ _ => True) (fun h' _ => Q h') Q (((h ++ [q; g]) ++ [lv]) ++ la)
      (Par (map (send_one (p_id p0) b3) nodes) (after_transfers gen_reports parse_record p b3 del))).
    { intros la b3 Hla Hp3 hs cs' Hcs. split; [done|]. intros bs Hbs. split; [done|].
      assert (Hall := sent_told _ _ _ _ _ _ Hcs Hbs).
      destruct (csteps_emits _ _ _ _ Hcs (send_all_sub (p_id p0) b3 nodes)) as [H1 _].
      assert (Hdone : forall hs', Forall house hs' -> Q (((((h ++ [q; g]) ++ [lv]) ++ la) ++ hs ++ [LJoin]) ++ hs')).
      { intros hs' Hhs'. rewrite <- (app_assoc _ [lv]), <- !(app_assoc (h ++ [q; g])). apply HQ.
        - apply Forall_app. split; [|by apply Hhouse]. apply Forall_app. split; [by constructor|]. apply Forall_app. split; [|by repeat constructor].
          eapply Forall_impl; [exact H1|]. intros l. apply sub_no_query.
        - intros s Hs. destruct (Hall s) as (x & Hx & Ht); [by apply Hsub|]. eapply o_tried; [apply Hg| |exact Hp3|].
          { rewrite !elem_of_app. right. left. right. left. exact Hx. }
          intros Hf n Hn. rewrite !elem_of_app. right. left. right. left. by apply Ht. }
      eapply (gsafe_emits house); [apply after_house|done|..]; intros; by apply Hdone. }
    unfold handle_age. apply safe_bind.
    destruct (block_by_type BUNDLE_AGE_BLOCK b2) as [[? ? ? d]|] eqn:Eb.
    2: { cbn [gsafe]. specialize (Hsend [] b2). rewrite app_nil_r in Hsend. by apply Hsend. }
    assert (Hid2 : bid b2 = bid b) by (by apply same_primary_bid).
    destruct d; try (apply safe_bind, safe_call; intros r; (split; [done|]); cbn [gsafe]; apply Hsend; [by repeat constructor|done]).
    apply safe_bind, safe_call. intros om. split; [done|]. destruct om as [mt|]; [|cbn [gsafe]; apply Hsend; [by repeat constructor|done]].
    apply safe_bind, safe_call. intros now. split; [done|]. cbv zeta. rewrite <- (app_assoc _ [_] [_]).
    destruct (new_age age now (p_recv mt) =? 0) eqn:Ea; [cbn [gsafe]; apply Hsend; [by repeat constructor|done]|].
    cbn [b_life with_blocks]. destruct (b_life b2 * 1000 <=? new_age age now (p_recv mt)) eqn:El.
    - apply N.leb_le in El. assert (Hl : b_life b2 = b_life b) by (unfold same_primary in Hp2; by injection Hp2).
      apply safe_bind. eapply (gsafe_emits house); [apply delete_fresh_house|done|..]; intros hs; intros; cbn [gsafe bind];
        rewrite <- !(app_assoc (h ++ [q; g])); (apply HQ; [rewrite <- app_assoc; constructor; [done|]; constructor; [done|]; constructor; [done|]; by apply Hhouse|]);
        intros s Hs; (eapply (o_age _ _ _ b age mt now); [apply Hg|unfold aged; by rewrite <- Hab|rewrite <- Hid2; right; right; left|right; right; right; left|by rewrite <- Hl]).
    - cbn [gsafe]. apply Hsend; [by repeat constructor|]. by eapply same_primary_trans; [|exact Hp2]. }
  assert (Hrest : forall b1, hop_stage b = Some b1 -> gsafe (fun _ _ => True) (fun h' _ => Q h') Q ((h ++ [q; g]) ++ [lv])
    (let* b2 := handle_previous_node host b1 in let* ob := handle_age gen_reports b2 in
     match ob with None => Ret false | Some b3 => Par (map (send_one (p_id p0) b3) nodes) (after_transfers gen_reports parse_record p b3 del) end)).
  { intros b1 Hb1.
    assert (Hb1o := fun t => hop_other t _ _ Hb1). apply hop_primary in Hb1. unfold handle_previous_node. apply safe_bind.
    destruct (block_by_type PREVIOUS_NODE_BLOCK b1) as [[? ? ? d]|] eqn:Ep.
    - assert (Hd : (exists e, d = CPrev e) \/ forall e, d <> CPrev e) by (destruct d; eauto).
      destruct Hd as [[e ->]|Hd].
      + cbn [gsafe]. apply (Htail b1); [done|by rewrite Hb1o|]. unfold prev_stage. by rewrite Ep.
      + assert (HP : Q ((h ++ [q; g]) ++ [lv])).
        { apply HQ; [by repeat constructor|]. intros s Hs. rewrite Hb1o in Ep by done. eapply (o_prev _ _ _ b); [apply Hg|exact Ep|exact Hd]. }
        destruct d; try exact HP. by destruct (Hd e).
    - cbn [gsafe]. apply (Htail b1); [done|by rewrite Hb1o|]. unfold prev_stage. by rewrite Ep. }
  unfold hop_stage in Hrest.
  destruct (block_by_type HOP_COUNT_BLOCK b) as [[? ? ? d]|] eqn:Eh; [|apply Hrest; done].
  destruct d; try (apply Hrest; done). cbv zeta.
  destruct (limit <? (count + 1) mod 256) eqn:El; [|apply Hrest; done].
  apply safe_bind. eapply (gsafe_emits house); [apply delete_fresh_house|done|..]; intros hs; intros; cbn [gsafe bind];
      rewrite <- (app_assoc _ [_] hs); (apply HQ; [constructor; [done|by apply Hhouse]|]);
      intros s Hs; (eapply (o_hops _ _ _ b); [apply Hg|unfold hop_stage; by rewrite Eh, El]).
Qed.
Lemma forward_served h p : served h -> gsafe (fun _ _ => True) (fun h' _ => served h') served h (forward p).
Proof.
  intros Hh. unfold Pipeline.forward. rewrite sync_forwarding.
  apply safe_bind, safe_call. intros r. split; [done|]. assert (Hh1 := served_app h [LAct (SUpdate (forwarding p)) r] Hh ltac:(by repeat constructor)).
  destruct r; [|done]. apply safe_bind, safe_call. intros ans. split; [done|]. destruct ans as [[nodes del]|].
  2: { intros h0 p' nodes del h1 E s Hs. destruct h1 as [|x h1] using rev_ind.
       - apply app_inj_tail in E as [_ E]. assert (E3 := lact_op _ _ _ _ E). injection E3 as <-. by apply lact_inj in E.
       - rewrite app_comm_cons, app_assoc in E. apply app_inj_tail in E as [E _]. apply outcome_app. by eapply Hh1. }
  destruct nodes as [|n nodes].
  { assert (H2 : served ((h ++ [LAct (SUpdate (forwarding p)) true]) ++ [LAct (Route (forwarding p)) (Some ([], del))])).
    { apply served_query; [done|constructor|]. by intros s ?%elem_of_nil. }
    destruct del; [|done]. apply safe_call. intros r. split; [done|]. apply served_app; [done|by repeat constructor]. }
  apply safe_bind, safe_call. intros ob. split; [done|]. rewrite <- app_assoc. cbn [app]. destruct ob as [b|].
  - eapply (copy_served _ (forwarding p) _ _ (forwarding p)); done.
  - cbn [gsafe]. apply served_query; [done|by repeat constructor|]. intros s _. apply o_gone. left.
Qed.
Lemma quiet_served {A} C h (p : prog A) : emits C p -> (forall l, C l -> no_query l) -> served h ->
  gsafe (fun _ _ => True) (fun h' _ => served h') served h p.
Proof.
  intros He HC Hh. eapply (gsafe_emits C); [done|done|..]; intros hs; intros; (apply served_app; [done|]); (eapply Forall_impl; [done|exact HC]).
Qed.
Lemma all_served k : gsafe (fun _ _ => True) (fun h' _ => served h') served [] (task_of k).
Proof.
  assert (H0 : served []) by (by intros []).
  destruct k; cbn [Pipeline.task_of].
  - eapply (quiet_served front); [|apply front_no_query|done]. emit. apply receive_front.
  - eapply (quiet_served front); [|apply front_no_query|done]. emit. apply submit_front.
  - apply safe_bind. by apply forward_served.
  - unfold process_bundles. apply safe_bind, safe_call. intros r. split; [done|].
    apply safe_bind. eapply gsafe_mono; [done| |done|eapply (quiet_served house); [apply expired_house|apply house_no_query|]].
    2: { apply served_app; [done|by repeat constructor]. }
    intros h [] Hh; cbv beta in Hh. apply safe_bind, safe_call. intros acc. split; [done|]. destruct acc; [|apply served_app; [done|by repeat constructor]].
    apply safe_bind, safe_call. intros ids. split; [done|]. apply safe_bind.
    eapply gsafe_mono; [done| |done|eapply (quiet_served house); [apply load_house|apply house_no_query|]].
    2: { rewrite <- app_assoc. apply served_app; [done|by repeat constructor]. }
    intros h' ps0 Hh'. cbv beta in Hh'. generalize (merge_sort by_time ps0). clear -Hh'. intros ps. revert h' Hh'. induction ps as [|p ps IH]; intros h' Hh'; [done|]. cbn [forward_all].
    destruct parallel.
    + split; [done|]. apply IH. apply served_app; [done|by repeat constructor].
    + apply safe_bind. eapply gsafe_mono; [done| |done|by apply forward_served]. cbn. intros h1 _ H1. by apply IH.
  - eapply (quiet_served no_query); [|done|done]. unfold app_pop, remove_if_singleton. emit.
  - eapply (quiet_served no_query); [|done|done]. unfold user_delete. emit.
Qed.
Lemma named_tried t1 i p nodes del t2 m k q s : run (t1 ++ EStep i (LAct (Route p) (Some (nodes, del))) :: t2) m ->
  m_tasks m !! i = Some (k, q) -> ended q -> s ∈ nodes -> outcome p s (did i t2).
Proof.
  intros Hr Hk He Hs. assert (H := run_ended _ _ _ _ _ (fun _ _ _ => True) (fun _ => served) _ _ _ _ _ all_served Hr Hk He).
  rewrite did_app in H. cbn in H. rewrite decide_True in H by done. eapply H; done.
Qed.
End hops.
