(** Networks: projection to the nodes, and where copies come from. *)
From stdpp Require Import prelude strings pretty gmap sorting.
From Coq Require Import NArith Lia ZifyBool ZifyN ZifyNat.
From Verif Require Import Core StoreMem Peers Routing Pipeline PipelineBase PipelineProofs PipelineInv PipelineRun TransferProofs Props_Transfer ReceptionProofs Props_Reception CauseProofs LocalProofs Props_Cause Network.
Open Scope N_scope.

(** what the reception of [b0] leaves in the store *)
Definition stored_form (b b0 : bundle) : Prop :=
  b = b0 \/ exists l, b = with_blocks b0 l /\ remove_indices (b_blocks b0) (marks (b_blocks b0) 0 []) = Some l.
Definition clean (b : bundle) : Prop := Forall (fun x => ~ flagged x) (b_blocks b).
Lemma stored_clean b b0 : stored_form b b0 -> clean b0 -> b = b0.
Proof.
  intros [->|(l & -> & H)] Hc; [done|]. rewrite marks_none in H by done. injection H as <-. by destruct b0.
Qed.
Lemma stored_primary b b0 : stored_form b b0 -> primary b = primary b0.
Proof. by intros [->|(l & -> & _)]. Qed.
Lemma primary_bid b b' : primary b = primary b' -> bid b = bid b'.
Proof. unfold primary. intros [= H1 H2 H3 H4 H5 H6 H7 H8 H9]. unfold bid. by rewrite H1, H3, H5, H6, H8. Qed.
Lemma elem_other x b : x ∈ b_blocks b -> 11 <= k_type x -> x ∈ other_blocks b.
Proof. intros H Ht. unfold other_blocks. apply elem_of_list_filter. split; [lia|done]. Qed.
Lemma clean_other b b0 : other_blocks b = other_blocks b0 -> clean b0 -> clean b.
Proof.
  intros E Hc. apply Forall_forall. intros x Hx [Ht Hr].
  assert (Hin : x ∈ other_blocks b) by (by apply elem_other). rewrite E in Hin.
  unfold other_blocks in Hin. apply elem_of_list_filter in Hin as [_ Hin].
  apply (proj1 (Forall_forall _ _) Hc x Hin). done.
Qed.

Section one.
Context (host : eid) (gen_reports parallel : bool) (parse_record : list N -> option arecord)
        (lifetime_exceeded : N -> bundle -> bool).
Notation run := (run host gen_reports parallel parse_record lifetime_exceeded).
Notation mstep := (mstep host gen_reports parallel parse_record lifetime_exceeded).
Lemma remove_bundles id s id' b : m_bundles (fst (mem_remove id s)) !! id' = Some b -> m_bundles s !! id' = Some b.
Proof.
  unfold mem_remove, mem_update. destruct (m_meta s !! id) as [p|]; [|done].
  destruct (m_meta s !! p_id (tombstone p)); cbn; [|done].
  destruct (m_bundles s !! id) eqn:E; cbn; [|done].
  destruct (decide (id' = id)) as [->|Hn]; [by rewrite lookup_delete|by rewrite lookup_delete_ne].
Qed.
Lemma stored_from tr m id b : run tr m -> m_bundles (n_store (m_node m)) !! id = Some b ->
  exists b0, b0 ∈ born tr /\ stored_form b b0.
Proof.
  intros Hr. revert id b. induction Hr as [m (Hs & _)|tr m e m' Hr IH Hs]; intros id b.
  { rewrite Hs. cbn. by rewrite lookup_empty. }
  assert (Hold : m_bundles (n_store (m_node m)) !! id = Some b -> exists b0, b0 ∈ born (tr ++ [e]) /\ stored_form b b0).
  { intros H. destruct (IH _ _ H) as (b0 & H1 & H2). exists b0. split; [|done]. rewrite born_app. apply elem_of_app. by left. }
  assert (Hr' : run (tr ++ [e]) m') by (by eapply run_step).
  inversion Hs as [| | | | | |m0 i k p o r p' n' _ _ Ha E1 E2 E3| |]; subst; cbn [m_node with_node n_store set_eps set_peers];
    try done.
  { by destruct (has_endpoint _ _). }
  destruct (access_store _ _ _ _ _ _ Ha) as [->|(id' & -> & ->)]; [|done].
  assert (Hp : forall c, (forall b0, b0 ∈ born tr -> stored_form c b0 -> exists b1, b1 ∈ born (tr ++ [EStep i (LAct o r)]) /\ stored_form c b1)).
  { intros c b0 H1 H2. exists b0. split; [|done]. rewrite born_app. apply elem_of_app. by left. }
  destruct (run_cause _ _ _ _ _ _ _ _ _ _ Hr') as (k1 & Hk1 & Hc).
  assert (Hprov : I_prov k1 (did i tr) (LAct o r)).
  { destruct (run_safe _ _ _ _ _ _ _ _ _ _ _ (prov _ _ _ _) Hr') as (k2 & Hk2 & H2). rewrite Hk1 in Hk2. by injection Hk2 as ->. }
  destruct o; cbn [store_after]; try exact Hold.
  - destruct r; [|exact Hold]. cbn [mem_push m_bundles]. destruct (decide (id = bid b0)) as [->|Hn]; [|by rewrite lookup_insert_ne].
    rewrite lookup_insert. intros [= <-]. cbn [I_cause] in Hc.
    destruct Hc as [(b1 & st & rs & Hc)|Hc].
    { apply (Hp b0 b0); [|by left]. eapply local_born_ok; [done|]. right. eauto. }
    destruct k1 as [b1|b1| | | |]; try done.
    + destruct Hc as (_ & _ & l & -> & Hl). apply (Hp _ b1); [eapply tasks_born; [done|done]|right; eauto].
    + destruct Hc as [-> _]. apply (Hp _ b1); [eapply tasks_born; [done|done]|by left].
  - destruct r as [[]|]; try exact Hold. cbn [mem_push m_bundles]. destruct (decide (id = bid b0)) as [->|Hn]; [|by rewrite lookup_insert_ne].
    rewrite lookup_insert. intros [= <-]. cbn in Hprov. subst k1. apply (Hp _ b0); [eapply tasks_born; [done|done]|by left].
  - intros H. apply Hold. by eapply remove_bundles.
  - destruct r; [|exact Hold]. unfold mem_update. by destruct (m_meta _ !! p_id p0).
Qed.
End one.

(** ** Projection *)
Lemma proj_app i t1 t2 : proj i (t1 ++ t2) = proj i t1 ++ proj i t2.
Proof. apply flat_map_app. Qed.
Lemma proj_one i e : proj i [e] = at_node i e.
Proof. unfold proj. cbn. by rewrite app_nil_r. Qed.
Lemma proj_at tr i e : At i e ∈ tr -> e ∈ proj i tr.
Proof.
  intros H. apply elem_of_list_In, in_flat_map. exists (At i e). split; [by apply elem_of_list_In|]. cbn. rewrite decide_True by done. by left.
Qed.
Section net.
Context (node_of : nat -> settings) (parse_record : list N -> option arecord)
        (lifetime_exceeded : N -> bundle -> bool).
Notation net_run := (net_run node_of parse_record lifetime_exceeded).
Notation run_at i := (run (s_host (node_of i)) (s_reports (node_of i)) (s_parallel (node_of i)) parse_record lifetime_exceeded).
Lemma net_proj tr ms : net_run tr ms -> forall i, run_at i (proj i tr) (ms i).
Proof.
  induction 1 as [ms H|tr ms i e m' _ IH _ Hs|tr ms j i b m' _ IH _ Hs|tr ms j b _ IH _|tr ms j i b m' _ IH _ Hs]; intros k.
  - by apply run_init.
  - rewrite proj_app, proj_one. cbn [at_node]. unfold upd. destruct (decide (i = k)) as [->|Hn].
    + rewrite decide_True by done. by eapply run_step.
    + rewrite decide_False by done. by rewrite app_nil_r.
  - rewrite proj_app, proj_one. cbn [at_node]. unfold upd. destruct (decide (i = k)) as [->|Hn].
    + rewrite decide_True by done. by eapply run_step.
    + rewrite decide_False by done. by rewrite app_nil_r.
  - rewrite proj_app, proj_one, app_nil_r. apply IH.
  - rewrite proj_app, proj_one. cbn [at_node]. unfold upd. destruct (decide (i = k)) as [->|Hn].
    + rewrite decide_True by done. by eapply run_step.
    + rewrite decide_False by done. by rewrite app_nil_r.
Qed.
Lemma net_app t1 t2 ms : net_run (t1 ++ t2) ms -> exists ms1, net_run t1 ms1.
Proof.
  revert ms. induction t2 as [|e t2 IH] using rev_ind; intros ms; [rewrite app_nil_r; eauto|].
  rewrite app_assoc. intros H. inversion H as [ms0 Hi E|tr ms0 i e0 m' Hr _ _ E|tr ms0 j i b m' Hr _ _ E|tr ms0 j b Hr _ E|tr ms0 j i b m' Hr _ _ E];
    [by destruct (t1 ++ t2)|apply app_inj_tail in E as [-> _]; by eapply IH..].
Qed.
(** a served copy was in the store *)
Lemma served tr ms j b : net_run tr ms -> Serves j b ∈ tr ->
  exists t1 t2 ms1, tr = t1 ++ Serves j b :: t2 /\ net_run t1 ms1 /\ m_bundles (n_store (m_node (ms1 j))) !! bid b = Some b.
Proof.
  intros H Hin. apply elem_of_list_split in Hin as (t1 & t2 & ->). exists t1, t2.
  replace (t1 ++ Serves j b :: t2) with ((t1 ++ [Serves j b]) ++ t2) in H by (by rewrite <- app_assoc).
  destruct (net_app _ _ _ H) as [ms1 H1].
  inversion H1 as [ms0 Hi E|tr ms0 i e0 m' Hr _ _ E|tr ms0 j0 i b0 m' Hr _ _ E|tr ms0 j0 b0 Hr Hg E|tr ms0 j0 i b0 m' Hr _ _ E];
    [by destruct t1|apply app_inj_tail in E as [-> E]; try done..].
  injection E as -> ->. exists ms1. done.
Qed.

(** ** Origins and travels *)
(** a bundle comes into being at node [j]: submitted there, or a status report *)
Definition origin_ev (e : event) (b : bundle) : Prop :=
  e = EStart (KSubmit b) \/ exists t b1 st rs, e = EStep t (LAct (NewReport b1 st rs) (Some b)).
Definition made (tr : list netev) (j : nat) (b : bundle) : Prop := exists e, At j e ∈ tr /\ origin_ev e b.
(** copies with primary block [p] took [n] transmissions and [f] downloads from
    node [j] to node [i] *)
Inductive travelled (tr : list netev) p (j : nat) : nat -> nat -> nat -> Prop :=
| tv_here : travelled tr p j 0 0 j
| tv_sent n f k i b : travelled tr p j n f k -> Arrives k i b ∈ tr -> primary b = p -> travelled tr p j (S n) f i
| tv_fetched n f k i b : travelled tr p j n f k -> Fetched k i b ∈ tr -> primary b = p -> travelled tr p j n (S f) i.
Lemma made_mono t1 t2 j b : made t1 j b -> made (t1 ++ t2) j b.
Proof. intros (e & H & Ho). exists e. split; [|done]. apply elem_of_app. by left. Qed.
Lemma travelled_mono t1 t2 p j n f i : travelled t1 p j n f i -> travelled (t1 ++ t2) p j n f i.
Proof.
  induction 1 as [|n f k i b _ IH Hin Hp|n f k i b _ IH Hin Hp]; [constructor|..].
  - eapply tv_sent; [done| |done]. apply elem_of_app. by left.
  - eapply tv_fetched; [done| |done]. apply elem_of_app. by left.
Qed.
(** what the copy [b] has of the original [b0] after [n] transmissions *)
Definition kept (b b0 : bundle) (n : nat) : Prop :=
  other_blocks b = other_blocks b0 /\
  (hop_count b0 = None -> hop_count b = None) /\
  forall l c, hop_count b0 = Some (l, c) -> l < 255 -> c < 255 ->
    hop_count b = Some (l, c + N.of_nat n) /\ (n = 0%nat \/ c + N.of_nat n <= l).
Record copy (tr : list netev) (i : nat) (b : bundle) (j : nat) (b0 : bundle) (n f : nat) : Prop := {
  cp_made : made tr j b0;
  cp_primary : primary b = primary b0;
  cp_way : travelled tr (primary b0) j n f i;
  cp_kept : clean b0 -> kept b b0 n }.
Lemma copy_mono t1 t2 i b j b0 n f : copy t1 i b j b0 n f -> copy (t1 ++ t2) i b j b0 n f.
Proof. intros [H1 H2 H3 H4]. split; [by apply made_mono|done|by apply travelled_mono|done]. Qed.
Lemma copy_stored tr i b s j b0 n f : copy tr i b j b0 n f -> stored_form s b -> copy tr i s j b0 n f.
Proof.
  intros [H1 H2 H3 H4] Hs. split; [done|by rewrite (stored_primary _ _ Hs)|done|].
  intros Hc. rewrite (stored_clean _ _ Hs); [by apply H4|]. eapply clean_other; [|done]. by apply H4.
Qed.
Definition all_copies (tr : list netev) : Prop :=
  forall i b, b ∈ born (proj i tr) -> exists j b0 n f, copy tr i b j b0 n f.
(** what a node transmits *)
Lemma sent_copy t1 j t s b r t2 ms : net_run (t1 ++ At j (EStep t (LAct (Transfer s b) r)) :: t2) ms ->
  all_copies t1 -> exists b1, previous_node b = Some (s_host (node_of j)) /\
    exists j0 b0 n f, copy t1 j b1 j0 b0 n f /\ primary b = primary b1 /\ other_blocks b = other_blocks b1 /\
    (hop_count b1 = None -> hop_count b = None) /\
    (forall l c, hop_count b1 = Some (l, c) -> c < 255 -> hop_count b = Some (l, c + 1) /\ c + 1 <= l).
Proof.
  intros H HI. assert (Hr := net_proj _ _ H j). rewrite proj_app in Hr.
  unfold proj at 2 in Hr. cbn [flat_map at_node] in Hr. rewrite decide_True in Hr by done. cbn [app] in Hr.
  destruct (took_intro _ _ _ _ _ _ _ _ _ _ _ _ Hr) as (st & m0 & since & b1' & b2' & la & hs & nodes & Ht & _ & Hh & Hp & Ha & Hsp & _).
  destruct Ht as (ta & Eta & Hta & Hst & _).
  destruct (stored_from _ _ _ _ _ _ _ _ _ Hta Hst) as (b1 & Hb1 & Hform).
  assert (Hb1' : b1 ∈ born (proj j t1)). { rewrite Eta, born_app. apply elem_of_app. by left. }
  destruct (HI _ _ Hb1') as (j0 & b0 & n & f & Hc). apply (copy_stored _ _ _ st) in Hc; [|done].
  exists st. split.
  { rewrite previous_node_of. unfold prev_of. rewrite (age_other PREVIOUS_NODE_BLOCK _ _ _ Ha) by done. by eapply prev_result. }
  exists j0, b0, n, f. split; [done|].
  split. { unfold same_primary in Hsp. unfold primary. injection Hsp as -> -> -> -> -> -> -> -> ->. done. }
  destruct (hop_blocks _ _ Hh) as [F1 G1]. destruct (prev_blocks _ _ _ Hp) as [F2 G2]. destruct (age_blocks _ _ _ Ha) as [F3 G3].
  split. { rewrite !other_ext. congruence. }
  assert (E : hop_of b = hop_of b1').
  { unfold hop_of. rewrite (age_other HOP_COUNT_BLOCK _ _ _ Ha), (prev_other _ HOP_COUNT_BLOCK _ _ Hp) by done. done. }
  rewrite !hop_count_of, E. apply hop_result in Hh. destruct (hop_of st) as [[l c]|]; [|done].
  split; [done|]. intros l' c' [= <- <-] Hlt. rewrite N.mod_small in Hh by lia. done.
Qed.
Lemma copy_sent t1 t2 j i b b1 j0 b0 n f :
  copy t1 j b1 j0 b0 n f -> Arrives j i b ∈ t1 ++ t2 -> primary b = primary b1 -> other_blocks b = other_blocks b1 ->
  (hop_count b1 = None -> hop_count b = None) ->
  (forall l c, hop_count b1 = Some (l, c) -> c < 255 -> hop_count b = Some (l, c + 1) /\ c + 1 <= l) ->
  copy (t1 ++ t2) i b j0 b0 (S n) f.
Proof.
  intros [H1 H2 H3 H4] Hin Hp Ho Hn Hh. split.
  - by apply made_mono.
  - congruence.
  - eapply tv_sent; [by apply travelled_mono|done|congruence].
  - intros Hc. destruct (H4 Hc) as (K1 & K2 & K3). split; [congruence|]. split; [auto|].
    intros l c E Hl Hcc. destruct (K3 _ _ E Hl Hcc) as [K4 K5].
    assert (Hlt : c + N.of_nat n < 255) by lia.
    destruct (Hh _ _ K4 Hlt) as [K6 K7]. rewrite K6. split; [do 2 f_equal; lia|]. right. lia.
Qed.
Lemma arrives_copies tr j i b ms : net_run tr ms -> (forall t1 t2, tr = t1 ++ t2 -> all_copies t1) -> gave tr j b ->
  exists j0 b0 n f, copy (tr ++ [Arrives j i b]) i b j0 b0 (S n) f /\ previous_node b = Some (s_host (node_of j)).
Proof.
  intros Hr IH (t & s & r & Hg). apply elem_of_list_split in Hg as (t1 & t2 & ->).
  destruct (sent_copy _ _ _ _ _ _ _ _ Hr (IH _ _ eq_refl)) as (b1 & Hp & j0 & b0 & n & f & Hc & E1 & E2 & E3 & E4).
  exists j0, b0, n, f. split; [|done]. rewrite <- app_assoc. eapply copy_sent; [done| |done..].
  apply elem_of_app. right. cbn. right. apply elem_of_app. right. left.
Qed.
Lemma stored_copy tr ms i id b : net_run tr ms -> all_copies tr -> m_bundles (n_store (m_node (ms i))) !! id = Some b ->
  exists j b0 n f, copy tr i b j b0 n f.
Proof.
  intros Hr HI Hb. destruct (stored_from _ _ _ _ _ _ _ _ _ (net_proj _ _ Hr i) Hb) as (b1 & Hb1 & Hf).
  destruct (HI _ _ Hb1) as (j & b0 & n & f & Hc). exists j, b0, n, f. by eapply copy_stored.
Qed.
Lemma fetched_copies tr j i b ms : net_run tr ms -> (forall t1 t2, tr = t1 ++ t2 -> all_copies t1) -> Serves j b ∈ tr ->
  exists j0 b0 n f, copy (tr ++ [Fetched j i b]) i b j0 b0 n (S f).
Proof.
  intros Hr IH Hg. destruct (served _ _ _ _ Hr Hg) as (t1 & t2 & ms1 & -> & Hr1 & Hb).
  destruct (stored_copy _ _ _ _ _ Hr1 (IH _ _ eq_refl) Hb) as (j0 & b0 & n & f & Hc).
  exists j0, b0, n, f. rewrite <- app_assoc. apply copy_mono with (t2 := (Serves j b :: t2) ++ [Fetched j i b]) in Hc.
  destruct Hc as [H1 H2 H3 H4]. split; [done|done| |done].
  eapply tv_fetched; [done| |done]. apply elem_of_app. right. apply elem_of_app. right. left.
Qed.
Lemma net_copies tr ms : net_run tr ms -> forall t1 t2, tr = t1 ++ t2 -> all_copies t1.
Proof.
  assert (Hpre : forall tr e, (forall t1 t2, tr = t1 ++ t2 -> all_copies t1) -> all_copies (tr ++ [e]) ->
                   forall t1 t2, tr ++ [e] = t1 ++ t2 -> all_copies t1).
  { intros t e H1 H2 t1 t2 E. destruct t2 as [|x t2 _] using rev_ind; [rewrite app_nil_r in E; by subst|].
    rewrite app_assoc in E. apply app_inj_tail in E as [E _]. by eapply H1. }
  intros H. induction H as [ms Hi|tr ms i e m' Hr IH He Hs|tr ms j i b m' Hr IH Hg Hs|tr ms j b Hr IH Hg|tr ms j i b m' Hr IH Hg Hs].
  { intros t1 t2 E. symmetry in E. apply app_nil in E as [-> _]. intros k b1 Hin. by apply elem_of_nil in Hin. }
  all: apply Hpre; [exact IH|].
  all: assert (IHw := IH tr [] (eq_sym (app_nil_r _))).
  all: intros k b1; rewrite proj_app, proj_one, born_app, elem_of_app; intros [Hin|Hin];
    [by destruct (IHw _ _ Hin) as (j1 & b0 & n & f & Hc); exists j1, b0, n, f; apply copy_mono|].
  all: cbn [at_node] in Hin; try (by apply elem_of_nil in Hin).
  all: destruct (decide (i = k)) as [->|]; [|by apply elem_of_nil in Hin].
  - assert (Ho : origin_ev e b1).
    { unfold born in Hin. cbn in Hin. rewrite app_nil_r in Hin.
      destruct e as [[]| | | | | |t [[]| |]]; try done; try (by apply elem_of_nil in Hin).
      - apply elem_of_list_singleton in Hin as ->. by left.
      - destruct r; [|by apply elem_of_nil in Hin]. apply elem_of_list_singleton in Hin as ->. right. eauto. }
    exists k, b1, 0%nat, 0%nat. split; [|done|constructor|].
    + exists e. split; [|done]. apply elem_of_app. right. left.
    + intros _. split; [done|]. split; [done|]. intros l c -> _ _. split; [do 2 f_equal; lia|by left].
  - cbn in Hin. apply elem_of_list_singleton in Hin as ->.
    destruct (arrives_copies _ _ k _ _ Hr IH Hg) as (j0 & b0 & n & f & Hc & _). eauto.
  - cbn in Hin. apply elem_of_list_singleton in Hin as ->.
    destruct (fetched_copies _ _ k _ _ Hr IH Hg) as (j0 & b0 & n & f & Hc). eauto.
Qed.
(** what is handed to an application *)
Lemma delivered_copy t1 i t e b r t2 ms : net_run (t1 ++ At i (EStep t (LAct (Deliver e b) r)) :: t2) ms ->
  exists j b0 n f, copy t1 i b j b0 n f /\
    exists j' b', made t1 j' b' /\ bid b' = bid b /\ e = b_dst b'.
Proof.
  intros H. assert (Hr := net_proj _ _ H i). rewrite proj_app in Hr.
  unfold proj at 2 in Hr. cbn [flat_map at_node] in Hr. rewrite decide_True in Hr by done. cbn [app] in Hr.
  destruct (handover _ _ _ _ _ _ _ _ _ _ _ _ _ Hr eq_refl) as (k & b1 & Hk & Ha & -> & Hb & Hg).
  apply did_elem in Hg. apply elem_of_list_split in Hg as (ta & tb & E).
  assert (Hr1 : exists m1, run_at i (proj i t1) m1) by (by eapply run_app_inv). destruct Hr1 as [m1 Hr1].
  rewrite E in Hr1. destruct (run_access _ _ _ _ _ _ _ _ _ _ _ Hr1) as (ma & mb & Hma & Hacc & _).
  cbn in Hacc. destruct Hacc as [Hacc _]. symmetry in Hacc.
  destruct (stored_from _ _ _ _ _ _ _ _ _ Hma Hacc) as (b2 & Hb2 & Hf).
  assert (HI := net_copies _ _ H t1 _ eq_refl).
  assert (Hb2' : b2 ∈ born (proj i t1)). { rewrite E, born_app. apply elem_of_app. by left. }
  destruct (HI _ _ Hb2') as (j & b0 & n & f & Hc). apply (copy_stored _ _ _ b) in Hc; [|done].
  exists j, b0, n, f. split; [done|].
  assert (Hb1 : b1 ∈ born (proj i t1)). { destruct Ha as [[-> _]| ->]; (eapply tasks_born; [done|done]). }
  destruct (HI _ _ Hb1) as (j' & b' & n' & f' & Hc'). exists j', b'. split; [by eapply cp_made|].
  assert (Ep := cp_primary _ _ _ _ _ _ _ Hc'). split.
  - rewrite Hb. symmetry. by apply primary_bid.
  - unfold primary in Ep. congruence.
Qed.
End net.
