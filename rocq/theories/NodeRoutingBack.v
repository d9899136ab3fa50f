(** Proofs about a node together with its routing agent: a bundle is announced
    to the agent before the agent is asked where to send it. *)
From stdpp Require Import prelude strings pretty gmap sorting.
From Coq Require Import NArith ZArith Lia ZifyBool ZifyN ZifyNat.
From Verif Require Import Core StoreMem Peers Routing RoutingProofs SawProofs Pipeline PipelineBase PipelineProofs PipelineInv PipelineCount CauseProofs LocalProofs NodeRouting NodeRoutingProofs.
Open Scope N_scope.

Definition clean (b : bundle) : Prop := forall x, x ∈ b_blocks b -> 11 <= k_type x -> kf_remove (k_flags x) = false.
Lemma marks_clean l i rm : (forall x, x ∈ l -> 11 <= k_type x -> kf_remove (k_flags x) = false) -> marks l i rm = rm.
Proof.
  revert i. induction l as [|x l IH]; intros i H; [done|]. cbn [marks].
  assert (Hl : forall x, x ∈ l -> 11 <= k_type x -> kf_remove (k_flags x) = false) by (intros y Hy; apply H; by right).
  destruct (k_type x <? 11) eqn:E; [by apply IH|]. rewrite (H x); [by apply IH|by left|lia].
Qed.
Section runs.
Context (host : eid) (gen_reports parallel : bool) (parse_record : list N -> option arecord)
        (lifetime_exceeded : N -> bundle -> bool).
Notation run := (run host gen_reports parallel parse_record lifetime_exceeded).
Notation access := (access host lifetime_exceeded).

Definition announced (id : string) (e : event) : bool :=
  match e with EStep _ (LAct (Notify (IncomingBundle x)) _) => bool_decide (bid x = id) | _ => false end.
Lemma announced_true id e : announced id e = true -> exists j x r, e = EStep j (LAct (Notify (IncomingBundle x)) r) /\ bid x = id.
Proof.
  destruct e as [| | | | | |j [o r| |]]; try done. destruct o; try done. destruct n; try done. cbn.
  intros H%bool_decide_eq_true. eauto.
Qed.
(** no query about a bundle that was not announced *)
Lemma route_after t1 i p a t2 m : run (t1 ++ EStep i (LAct (Route p) a) :: t2) m ->
  (forall j b0 st rs out, EStep j (LAct (NewReport b0 st rs) (Some out)) ∈ t1 -> bid out <> p_id p) ->
  existsb (announced (p_id p)) t1 = true.
Proof.
  intros H HR. destruct (existsb (announced (p_id p)) t1) eqn:E; [done|]. exfalso.
  destruct (run_split _ _ _ _ _ _ _ _ _ H) as (m1 & m2 & H1 & _ & _).
  assert (HU : unmarkable host t1 (p_id p)).
  { split; [|exact HR]. intros j k Hk _ (x & r & Hg & Hn). apply did_elem in Hg, Hn.
    destruct (iv_get _ _ (run_inv _ _ _ _ _ _ _ H1) _ _ _ Hg) as [Hid _].
    assert (existsb (announced (p_id p)) t1 = true); [|congruence].
    apply existsb_exists. eexists. split; [by apply elem_of_list_In|]. cbn. by rewrite bool_decide_true. }
  assert (Hi := run_mark _ _ _ _ _ _ _ _ H1 HU).
  eapply run_safe in H; [|intros k; apply all_mark]. destruct H as (k & Hk & Hm).
  eapply mark_not; [exact H1|exact HU|exact Hi|exact Hk|exact Hm].
Qed.

Section one.
Context (id : string) (P : bundle -> Prop).
Definition only (tr : list event) : Prop := forall x, x ∈ born tr -> bid x = id -> clean x /\ P x.
Lemma only_app t1 t2 : only (t1 ++ t2) -> only t1.
Proof. intros H x Hx. apply H. rewrite born_app. apply elem_of_app. by left. Qed.
Lemma push_same t1 i x r t2 m : run (t1 ++ EStep i (LAct (SPush x) r) :: t2) m -> only t1 -> bid x = id -> P x.
Proof.
  intros Hr Ho Hid. eapply run_safe in Hr; [|intros k; by apply all_cause]. destruct Hr as (k & Hk & Hi). cbn [I_cause] in Hi.
  destruct Hi as [(b0 & st & rs & H)|H].
  - apply Ho; [|done]. eapply local_born_ok; [exact Hk|]. right. eauto.
  - destruct k as [b0|b0| | | |]; try done.
    + destruct H as (_ & _ & l & -> & Hl). destruct (Ho b0) as [Hc Hp]; [by eapply tasks_born|done|].
      rewrite marks_clean in Hl by done. injection Hl as <-. by destruct b0.
    + destruct H as [-> _]. apply Ho; [by eapply tasks_born|done].
Qed.
Lemma add_same t1 i x r t2 m : run (t1 ++ EStep i (LAct (SAdd x) r) :: t2) m -> only t1 -> bid x = id -> P x.
Proof.
  intros Hr Ho Hid. eapply run_safe in Hr; [|intros k; by apply prov]. destruct Hr as (k & Hk & Hi). cbn [I_prov] in Hi. subst k.
  apply Ho; [by eapply tasks_born|done].
Qed.
Lemma kept_same tr m : run tr m -> only tr ->
  (forall x, m_bundles (n_store (m_node m)) !! id = Some x -> P x) /\
  (forall i x, EStep i (LAct (SGet id) (Some x)) ∈ tr -> P x).
Proof.
  induction 1 as [m (Hs & Ht & _)|tr m e m' Hr IH Hs]; intros Ho.
  { split; [rewrite Hs; cbn; intros x Hx; by rewrite lookup_empty in Hx|intros ? ? H; by apply elem_of_nil in H]. }
  destruct (IH (only_app _ _ Ho)) as [I1 I2]. clear IH.
  assert (Hr' : run (tr ++ [e]) m') by (by eapply run_step).
  assert (Hacc : forall i o r, e = EStep i (LAct o r) -> access (m_node m) o r (m_node m')).
  { intros i o r ->. inversion Hs; subst.
    repeat match goal with H : existT _ _ = existT _ _ |- _ => apply (Eqdep_dec.inj_pair2_eq_dec _ (fun x y => decide (x = y))) in H end.
    by subst. }
  split.
  - intros x Hx. destruct e as [| | | | | |i [o r|q|]].
    1-6, 8-9: inversion Hs; subst; try destruct (has_endpoint _ _); cbn in Hx; by apply I1.
    specialize (Hacc _ _ _ eq_refl).
    destruct (access_store _ _ _ _ _ _ Hacc) as [E|(id' & -> & E)]; rewrite E in Hx; [|by apply I1].
    destruct o; cbn [store_after] in Hx; try (by apply I1).
    + destruct r; [|by apply I1]. cbn in Hx. apply lookup_insert_Some in Hx as [[E1 <-]|[_ Hx]]; [|by apply I1].
      eapply push_same; [exact Hr'|by eapply only_app|done].
    + destruct r as [[]|]; try (by apply I1). cbn in Hx. apply lookup_insert_Some in Hx as [[E1 <-]|[_ Hx]]; [|by apply I1].
      eapply add_same; [exact Hr'|by eapply only_app|done].
    + apply I1. unfold mem_remove, mem_update in Hx. match type of Hx with context [m_meta _ !! ?j] => destruct (m_meta (n_store (m_node m)) !! j) as [q|]; [|done] end.
      destruct (m_meta _ !! p_id (tombstone q)); [|done]. cbn in Hx.
      match type of Hx with context [match m_bundles _ !! ?j with _ => _ end] => destruct (m_bundles (n_store (m_node m)) !! j); [|done] end.
      cbn in Hx. by apply lookup_delete_Some in Hx as [_ Hx].
    + apply I1. destruct r; [|done]. unfold mem_update in Hx. by destruct (m_meta _ !! p_id p).
  - intros i x [H|H]%elem_snoc; [by eapply I2|]. symmetry in H. specialize (Hacc _ _ _ H). cbn in Hacc.
    destruct Hacc as [Hacc _]. symmetry in Hacc. by apply I1.
Qed.

Lemma announced_what t1 i x r t2 m : run (t1 ++ EStep i (LAct (Notify (IncomingBundle x)) r) :: t2) m -> only t1 -> bid x = id -> P x.
Proof.
  intros H Ho Hid. destruct (run_split _ _ _ _ _ _ _ _ _ H) as (m1 & m2 & H1 & _ & _).
  eapply run_safe in H; [|intros k; apply all_mark]. destruct H as (k & Hk & y & Hy). apply did_elem in Hy.
  destruct (iv_get _ _ (run_inv _ _ _ _ _ _ _ H1) _ _ _ Hy) as [Hid' _].
  destruct (kept_same _ _ H1 Ho) as [_ HG]. apply (HG i). by rewrite <- Hid, Hid'.
Qed.
End one.
End runs.

Lemma joint_split l tr : joint l tr -> forall t1 i n r t2, tr = t1 ++ EStep i (LAct (Notify n) r) :: t2 ->
  exists l1 a l2, l = l1 ++ (RNotify n, a) :: l2 /\ joint l1 t1.
Proof.
  revert l tr. assert (Hlast : forall (t1 t2 tr : list event) x e, tr ++ [e] = t1 ++ x :: t2 ->
    (t2 = [] /\ e = x /\ tr = t1) \/ (exists t2', tr = t1 ++ x :: t2')).
  { intros t1 t2 tr x e H. destruct t2 as [|y t2 _] using rev_ind.
    - apply app_inj_tail in H as [-> ->]. by left.
    - right. rewrite app_comm_cons, app_assoc in H. apply app_inj_tail in H as [-> _]. eauto. }
  intros l tr. induction 1 as [|l tr j n' a r' Hj IH|l tr j p ps clas a Hj IH|l tr c a Hj IH Hc|l tr e Hj IH He]; intros t1 i n r t2 E.
  - by destruct t1.
  - destruct (Hlast _ _ _ _ _ E) as [(-> & Ee & ->)|(t2' & E')].
    + injection Ee as -> -> _. exists l, a, []. done.
    + destruct (IH _ _ _ _ _ E') as (l1 & a' & l2 & -> & ?). exists l1, a', (l2 ++ [(RNotify n', a)]). split; [|done]. by rewrite <- app_assoc.
  - destruct (Hlast _ _ _ _ _ E) as [(-> & Ee & ->)|(t2' & E')]; [done|].
    destruct (IH _ _ _ _ _ E') as (l1 & a' & l2 & -> & ?). exists l1, a', (l2 ++ [(RSender p ps clas, a)]). split; [|done]. by rewrite <- app_assoc.
  - destruct (IH _ _ _ _ _ E) as (l1 & a' & l2 & -> & ?). exists l1, a', (l2 ++ [(c, a)]). split; [|done]. by rewrite <- app_assoc.
  - destruct (Hlast _ _ _ _ _ E) as [(-> & Ee & ->)|(t2' & E')]; [by subst e|]. eauto.
Qed.
Lemma existsb_first {A} (f : A -> bool) l : existsb f l = true -> exists l1 x l2, l = l1 ++ x :: l2 /\ f x = true /\ existsb f l1 = false.
Proof.
  induction l as [|y l IH]; [done|]. cbn. destruct (f y) eqn:E; [intros _; exists [], y, l; done|].
  intros (l1 & x & l2 & -> & ? & ?)%IH. exists (y :: l1), x, l2. cbn. rewrite E. done.
Qed.
Section back.
Context (host : eid) (gen_reports parallel : bool) (parse_record : list N -> option arecord)
        (lifetime_exceeded : N -> bundle -> bool).
Notation run := (run host gen_reports parallel parse_record lifetime_exceeded).
Definition from (n : string) (b : bundle) : Prop := exists e, previous_node b = Some e /\ eid_node e = Some n.
Definition no_report (id : string) (tr : list event) : Prop :=
  forall j b0 st rs out, EStep j (LAct (NewReport b0 st rs) (Some out)) ∈ tr -> bid out <> id.
Lemma no_grants id n l tr m : run tr m -> joint l tr -> no_report id tr -> existsb (announced id) tr = false ->
  lsum (grants (just id n)) l = 0%Z.
Proof.
  intros Hr Hj HR He. rewrite (lsum_ext _ (fun _ => 0%Z)); [unfold lsum; apply zsum_zero|].
  intros [c a] Hin. assert (H0 := grants_nonneg (just id n) (c, a)).
  destruct (decide (0 < grants (just id n) (c, a))%Z) as [Hp|]; [|lia]. exfalso.
  destruct c as [p ps clas|nf|cmd f]; [|by destruct nf|done]. destruct a as [[ss del]|]; [|done]. cbn [grants] in Hp.
  apply hits_just_in in Hp as (Hid & _). destruct (joint_route _ _ _ _ _ _ Hj Hin) as [i Hi].
  apply elem_of_list_split in Hi as (t1 & t2 & ->). apply route_after in Hr.
  - rewrite Hid, existsb_app in *. rewrite Hr in He. done.
  - rewrite Hid. intros j b0 st rs out H. eapply HR. apply elem_of_app. left. exact H.
Qed.
Theorem epidemic_back tr m cs id n : run tr m -> joint (arun e_step (Some ∅) cs) tr -> n <> "" ->
  no_report id tr -> only id (from n) tr -> (wsum (won (just id n)) tr <= 0)%Z.
Proof.
  intros Hr Hj Hn HR Ho. assert (H1 := spent _ _ _ _ _ (just id n) nobody tr m Hr). rewrite (joint_books _ _ _ _ Hj) in H1.
  assert (H3 := lsum_nonneg (refunds nobody) (arun e_step (Some ∅) cs) (refunds_nonneg _)).
  assert (H4 : wsum (lost nobody) tr = 0%Z).
  { clear. induction tr as [|e tr IH] using rev_ind; [done|]. rewrite wsum_snoc, IH. destruct e as [| | | | | |i [o r| |]]; try done.
    destruct o; try done. by destruct r. }
  cut (lsum (grants (just id n)) (arun e_step (Some ∅) cs) - lsum (refunds (just id n)) (arun e_step (Some ∅) cs) <= 0)%Z; [lia|].
  assert (H5 := lsum_nonneg (refunds (just id n)) (arun e_step (Some ∅) cs) (refunds_nonneg _)).
  destruct (existsb (announced id) tr) eqn:E; [|rewrite (no_grants id n _ _ _ Hr Hj HR E); lia].
  apply existsb_first in E as (t1 & e & t2 & -> & He & E). apply announced_true in He as (j & x & r & -> & Hid).
  destruct (joint_split _ _ Hj _ _ _ _ _ eq_refl) as (l1 & a & l2 & El & Hj1).
  destruct (run_app_inv _ _ _ _ _ _ _ _ Hr) as [m1 Hr1].
  assert (Hg := no_grants id n _ _ _ Hr1 Hj1 (fun j b0 st rs out H => HR j b0 st rs out (proj2 (elem_of_app _ _ _) (or_introl H))) E).
  assert (Hx : from n x) by (eapply announced_what; [exact Hr|by eapply only_app|done]). destruct Hx as (ep & Hp & Hen).
  destruct (arun_split _ _ _ _ _ _ El) as (c1 & c2 & -> & E1 & _ & E2).
  rewrite El, !lsum_app, !lsum_cons, Hg. cbn [fst] in *. change (grants (just id n) (RNotify (IncomingBundle x), a)) with 0%Z.
  change (refunds (just id n) (RNotify (IncomingBundle x), a)) with 0%Z.
  assert (H6 := lsum_nonneg (refunds (just id n)) l1 (refunds_nonneg _)).
  rewrite <- E2. destruct (astate e_step (Some ∅) c1) as [h|] eqn:Eh.
  - rewrite astate_app, Eh. cbn [astate mbind option_bind e_step fmap option_fmap option_map fst]. rewrite Hp, Hen, Hid.
    assert (H7 := e_books id n c2 (e_incoming h id n)).
    assert (Hc : e_contains (e_incoming h id n) id n = true) by (apply e_contains_incoming; by right).
    rewrite Hc in H7. cbn [ind] in H7. lia.
  - rewrite astate_app, Eh, astate_dead, books_dead. assert (H7 := lsum_nonneg (refunds (just id n)) (arun e_step None c2) (refunds_nonneg _)). lia.
Qed.
End back.
