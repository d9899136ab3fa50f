(** C141: a round of the janitor tries every bundle that waits, the oldest first.
    C142: a round removes what is overdue.
    C143: bundles that wait survive a crash and are tried again. *)
From stdpp Require Import prelude strings pretty gmap sorting.
From Coq Require Import NArith Lia ZifyBool ZifyN ZifyNat.
From Verif Require Import Core StoreMem Peers Routing Pipeline PipelineBase PipelineProofs PipelineInv PipelineRun Props_Cause JanitorProofs Restart.
Open Scope N_scope.

(** ** Specification *)
(** the bundle is marked to be passed on *)
Definition waiting (m : machine) (id : string) : Prop :=
  exists p, m_meta (n_store (m_node m)) !! id = Some p /\ has_constraint p ForwardPending = true /\ has_constraint p Deleted = false.
(** its lifetime is over, and it was not deleted yet *)
Definition overdue (m : machine) (id : string) : Prop :=
  exists p, m_meta (n_store (m_node m)) !! id = Some p /\ has_constraint p Deleted = false /\
            p_life p <> 0 /\ p_time p + p_life p < n_dtn (m_node m).
Definition completed (m : machine) (i : nat) (k : kind) : Prop := m_tasks m !! i = Some (k, Ret tt).
(** an attempt of task [i] to pass on the bundle described by [p]: it asks the
    routing agent, or starts a task for it *)
Definition attempt (i : nat) (p : pack) (e : event) : Prop :=
  e = EStep i (LSpawn p) \/ exists a, e = EStep i (LAct (Route p) a).
Definition tries (tr : list event) (i : nat) (id : string) : Prop :=
  exists p e, p_id p = id /\ e ∈ tr /\ attempt i p e.
(** the store could not save that an attempt is made *)
Definition not_saved (tr : list event) (i : nat) (id : string) : Prop :=
  exists p, p_id p = id /\ does tr i (SUpdate p) false.
Lemma waiting_dec m id : waiting m id \/ ~ waiting m id.
Proof.
  unfold waiting. destruct (m_meta (n_store (m_node m)) !! id) as [p|] eqn:E; [|right; by intros (p & ? & _)].
  destruct (has_constraint p ForwardPending) eqn:E1; [|right; intros (q & [= <-] & ? & ?); congruence].
  destruct (has_constraint p Deleted) eqn:E2; [right; intros (q & [= <-] & ? & ?); congruence|left; eauto].
Qed.
Lemma overdue_dec m id : overdue m id \/ ~ overdue m id.
Proof.
  unfold overdue. destruct (m_meta (n_store (m_node m)) !! id) as [p|] eqn:E; [|right; by intros (p & ? & _)].
  destruct (has_constraint p Deleted) eqn:E2; [right; intros (q & [= <-] & ? & ?); congruence|].
  destruct (decide (p_life p <> 0 /\ p_time p + p_life p < n_dtn (m_node m))) as [H|H]; [left; exists p; tauto|].
  right. intros (q & [= <-] & _ & ?). tauto.
Qed.

Section statements.
Context (host : eid) (gen_reports parallel : bool) (parse_record : list N -> option arecord)
        (lifetime_exceeded : N -> bundle -> bool).
Notation path := (path host gen_reports parallel parse_record lifetime_exceeded).
Notation lives := (lives host gen_reports parallel parse_record lifetime_exceeded).
Notation boots := (boots host gen_reports parallel parse_record lifetime_exceeded).
(** at one of the steps of task [i] the node was in such a state *)
Definition meanwhile (m0 : machine) (tr : list event) (m : machine) (i : nat) (P : machine -> Prop) : Prop :=
  exists t1 l t2 m1, tr = t1 ++ EStep i l :: t2 /\ path m0 t1 m1 /\ path m1 (EStep i l :: t2) m /\ P m1.

(** ** C141 *)
Lemma step_of m0 tr m i h1 o r h2 : path m0 tr m -> did i tr = h1 ++ LAct o r :: h2 ->
  exists t1 t2 m1 m2, tr = t1 ++ EStep i (LAct o r) :: t2 /\ did i t1 = h1 /\ did i t2 = h2 /\
    path m0 t1 m1 /\ access host lifetime_exceeded (m_node m1) o r (m_node m2) /\ path m2 t2 m /\
    forall P : machine -> Prop, P m1 -> meanwhile m0 tr m i P.
Proof.
  intros Hp E. apply did_split in E as (t1 & t2 & -> & E1 & E2).
  destruct (path_access _ _ _ _ _ _ _ _ _ _ _ _ Hp) as (m1 & m2 & H1 & Ha & H2 & H3).
  exists t1, t2, m1, m2. split_and!; try done. intros P HP. by exists t1, (LAct o r), t2, m1.
Qed.
Theorem C141_round_tries_all : forall m0 tr m i id,
  boots m0 -> path m0 tr m -> completed m i KJanitor ->
  tries tr i id \/ not_saved tr i id \/
  does tr i Accepting false \/
  meanwhile m0 tr m i (fun m1 => ~ waiting m1 id).
Proof.
  intros m0 tr m i id [Hl H0] Hp Hi. destruct (janitor_did _ _ _ _ _ _ _ _ _ H0 Hp Hi) as (_ & [Ha|Hk] & _).
  { right. right. left. by apply did_elem. }
  destruct Hk as (h0 & ids & h1 & E & Hk).
  destruct (step_of _ _ _ _ _ _ _ _ Hp E) as (t1 & t2 & m1 & m2 & Et & E1 & E2 & Hp1 & [Hids _] & Hp2 & Hm).
  destruct (waiting_dec m1 id) as [(p & Hpk & Hf & Hd)|Hn]; [|do 3 right; by apply Hm].
  assert (Hk1 := lives_keys _ _ _ _ _ _ (path_lives _ _ _ _ _ _ _ _ Hp1 Hl)).
  assert (Hin : id ∈ ids).
  { rewrite Hids. unfold mem_forwarding, mem_filter. apply elem_of_list_fmap. exists p. split; [symmetry; by apply Hk1|].
    apply elem_of_list_filter. split; [change (has_constraint p ForwardPending && true = true); by rewrite Hf|]. apply elem_of_list_fmap. exists (id, p). split; [done|].
    by apply elem_of_map_to_list. }
  destruct (Hk id Hin) as (om & Ho & Hb). apply elem_of_list_split in Ho as (ha & hb & Eh).
  rewrite Eh in E. replace (h0 ++ LAct SForwarding ids :: ha ++ LAct (SMeta id) om :: hb)
    with ((h0 ++ LAct SForwarding ids :: ha) ++ LAct (SMeta id) om :: hb) in E by (by rewrite <- app_assoc).
  destruct (step_of _ _ _ _ _ _ _ _ Hp E) as (t3 & t4 & m3 & m4 & Et3 & _ & _ & Hp3 & [Hom _] & _ & Hm3).
  destruct (waiting_dec m3 id) as [(q & Hq & Hqf & Hqd)|Hn]; [|do 3 right; by apply Hm3].
  assert (Hk3 := lives_keys _ _ _ _ _ _ (path_lives _ _ _ _ _ _ _ _ Hp3 Hl)).
  assert (Hqi : p_id q = id) by (by apply Hk3).
  assert (Hsub : forall l, l ∈ h1 -> EStep i l ∈ tr).
  { intros l Hl1. apply did_elem. rewrite E, <- app_assoc, <- app_comm_cons, <- Eh. apply elem_of_app. right. by right. }
  specialize (Hb q). unfold mem_meta_of in Hom. rewrite Hom in Hb. specialize (Hb Hq Hqd). unfold begun in Hb. destruct parallel.
  - left. exists q, (EStep i (LSpawn q)). split; [done|]. split; [by apply Hsub|by left].
  - destruct Hb as [Hb|[a Hb]].
    + right. left. exists (forwarding q). split; [done|by apply Hsub].
    + left. exists (forwarding q), (EStep i (LAct (Route (forwarding q)) a)). split; [done|]. split; [by apply Hsub|right; by exists a].
Qed.
(** the attempts are made in the order of the creation times *)
Lemma attempts_sorted i tr p q e1 e2 t1 t2 t3 : StronglySorted by_time (attempts (did i tr)) ->
  tr = t1 ++ e1 :: t2 ++ e2 :: t3 -> attempt i p e1 -> attempt i q e2 -> p_time p <= p_time q.
Proof.
  intros Hs -> H1 H2. assert (Hd : forall p e, attempt i p e -> attempts (did i [e]) = [p]).
  { intros x e [-> |[a ->]]; cbn; by rewrite decide_True. }
  replace (t1 ++ e1 :: t2 ++ e2 :: t3) with (t1 ++ [e1] ++ t2 ++ [e2] ++ t3) in Hs by done.
  rewrite !did_app, !attempts_app, (Hd _ _ H1), (Hd _ _ H2) in Hs.
  apply StronglySorted_app_inv_r in Hs. cbn in Hs. apply StronglySorted_inv in Hs as [_ Hs].
  rewrite Forall_forall in Hs. apply (Hs q). apply elem_of_app. right. left.
Qed.
Theorem C141_oldest_first : forall m0 tr m i p q e1 e2 t1 t2 t3,
  boots m0 -> path m0 tr m -> completed m i KJanitor ->
  tr = t1 ++ e1 :: t2 ++ e2 :: t3 -> attempt i p e1 -> attempt i q e2 ->
  p_time p <= p_time q.
Proof.
  intros m0 tr m i p q e1 e2 t1 t2 t3 [_ H0] Hp Hi E H1 H2. destruct (janitor_did _ _ _ _ _ _ _ _ _ H0 Hp Hi) as (_ & _ & Hs).
  by eapply attempts_sorted.
Qed.
(** a task that was started for a bundle asks the routing agent *)
Theorem C141_started_task_asks : forall m0 tr m j p,
  boots m0 -> path m0 tr m -> completed m j (KForward p) ->
  (exists q a, p_id q = p_id p /\ does tr j (Route q) a) \/ not_saved tr j (p_id p).
Proof.
  intros m0 tr m j p [_ H0] Hp Hi. assert (Ht := path_did _ _ _ _ _ _ _ _ _ _ _ H0 Hp Hi).
  pose (Q := fun (h : list label) (_ : unit) => LAct (SUpdate (forwarding p)) false ∈ h \/ exists a, LAct (Route (forwarding p)) a ∈ h).
  assert (HQ : Q (did j tr) tt).
  { apply (safe_ret (fun _ _ => True) Q (fun _ => True) _ _ tt [] Ht). cbn [task_of]. apply safe_bind, forward_begins.
    intros hs a Hb _. exact Hb. }
  destruct HQ as [Hq|[a Hq]]; apply did_elem in Hq.
  - right. by exists (forwarding p).
  - left. by exists (forwarding p), a.
Qed.

(** ** C142 *)
Theorem C142_round_removes_overdue : forall m0 tr m i id,
  boots m0 -> path m0 tr m -> completed m i KJanitor ->
  (exists t1 r t2 m1, tr = t1 ++ EStep i (LAct (SRemove id) r) :: t2 /\
     path m0 (t1 ++ [EStep i (LAct (SRemove id) r)]) m1 /\ path m1 t2 m /\
     (r = true -> m_bundles (n_store (m_node m1)) !! id = None /\ ~ waiting m1 id)) \/
  meanwhile m0 tr m i (fun m1 => ~ overdue m1 id).
Proof.
  intros m0 tr m i id [Hl H0] Hp Hi. destruct (janitor_did _ _ _ _ _ _ _ _ _ H0 Hp Hi) as (Hk & _ & _).
  destruct Hk as (h0 & ps & h1 & E & Hk).
  destruct (step_of _ _ _ _ _ _ _ _ Hp E) as (t1 & t2 & m1 & m2 & Et & E1 & E2 & Hp1 & [Hps Hn2] & Hp2 & Hm).
  destruct (overdue_dec m1 id) as [(p & Hpk & Hd & Hlf & Hov)|Hn]; [|right; by apply Hm]. left.
  assert (Hk1 := lives_keys _ _ _ _ _ _ (path_lives _ _ _ _ _ _ _ _ Hp1 Hl)).
  destruct (Hk p) as (ha & now & hb & Eh & Hr); [|done|].
  { rewrite Hps. apply elem_of_list_fmap. exists (id, p). split; [done|]. by apply elem_of_map_to_list. }
  rewrite Eh in E, E2. rewrite (Hk1 _ _ Hpk) in Hr.
  destruct (step_of _ _ _ _ _ _ _ _ Hp2 E2) as (t3 & t4 & m3 & m4 & Et3 & _ & _ & Hp3 & [Hnow _] & _ & _).
  assert (Hexp : has_expired now p = true).
  { unfold has_expired. destruct (p_life p =? 0) eqn:El; [lia|]. apply N.ltb_lt.
    eapply N.le_lt_trans; [apply N.mod_le; done|]. rewrite Hnow. assert (Hle := path_dtn _ _ _ _ _ _ _ _ Hp3). rewrite Hn2 in Hle. lia. }
  destruct (Hr Hexp) as [r Hin]. apply elem_of_list_split in Hin as (hc & hd & Ehb). rewrite Ehb in E.
  replace (h0 ++ LAct SPacks ps :: ha ++ LAct DtnClock now :: hc ++ LAct (SRemove id) r :: hd)
    with ((h0 ++ LAct SPacks ps :: ha ++ LAct DtnClock now :: hc) ++ LAct (SRemove id) r :: hd) in E
    by (rewrite <- !app_assoc; cbn; by rewrite <- !app_assoc).
  apply did_split in E as (t5 & t6 & Et5 & _ & _). rewrite Et5 in Hp.
  replace (t5 ++ EStep i (LAct (SRemove id) r) :: t6) with ((t5 ++ [EStep i (LAct (SRemove id) r)]) ++ t6) in Hp by (by rewrite <- app_assoc).
  apply path_split in Hp as (m5 & Hp5 & Hp6).
  destruct (path_access _ _ _ _ _ _ _ _ _ _ _ _ Hp5) as (m6 & m7 & Hp8 & Ha & Hn7 & _).
  assert (E7 : m7 = m5) by (by inversion Hn7). rewrite E7 in Ha. clear E7 Hn7.
  exists t5, r, t6, m5. split; [done|]. split; [done|]. split; [done|]. intros ->.
  assert (Hn5 : is_Some (m_meta (n_store (m_node m6)) !! id) /\ m_node m5 = set_store (m_node m6) (fst (mem_remove id (n_store (m_node m6))))).
  { destruct Ha as [[Ha Hn5]|[[? _]|(_ & Hm6 & Hn5)]]; [|done|done]. split; [|done]. revert Ha. unfold mem_remove.
    destruct (m_meta (n_store (m_node m6)) !! id); [eauto|done]. }
  clear Ha. destruct Hn5 as [[q Eq] Hn5]. unfold waiting. rewrite Hn5. clear Hn5. cbn [n_store set_store].
  unfold mem_remove in *. rewrite Eq.
  assert (Hk6 : keys_ok (n_store (m_node m6))) by (by apply (lives_keys host gen_reports parallel parse_record lifetime_exceeded), (path_lives _ _ _ _ _ _ _ _ Hp8 Hl)).
  unfold mem_update in *. rewrite tombstone_id, (Hk6 _ _ Eq), Eq in *. cbn [m_bundles m_meta] in *.
  destruct (m_bundles (n_store (m_node m6)) !! id) as [bx|] eqn:Ebx; cbn [fst m_bundles m_meta m_node n_store set_store].
  2: { split; [done|]. rewrite lookup_insert. intros (x & [= <-] & _ & Hx). by rewrite tombstone_has in Hx. }
  split; [apply lookup_delete|]. rewrite lookup_insert. intros (x & [= <-] & _ & Hx). by rewrite tombstone_has in Hx.
Qed.

(** ** C143 *)
(** somebody removed the bundle, or took the mark away *)
Definition removed (tr : list event) (id : string) : Prop := exists j r, does tr j (SRemove id) r.
Definition unmarked (tr : list event) (id : string) : Prop :=
  exists j p, does tr j (SUpdate p) true /\ p_id p = id /\ (has_constraint p ForwardPending = false \/ has_constraint p Deleted = true).
Definition held (m : machine) (id : string) : Prop :=
  waiting m id /\ is_Some (m_bundles (n_store (m_node m)) !! id).
Lemma push_held now b s id p : m_meta s !! id = Some p -> is_Some (m_bundles s !! id) ->
  m_meta (mem_push now b s) !! id = Some p /\ is_Some (m_bundles (mem_push now b s) !! id).
Proof.
  intros Hp Hb. unfold mem_push. cbn [m_meta m_bundles]. destruct (decide (bid b = id)) as [<-|Hne].
  - rewrite lookup_insert. destruct Hb as [x ->]. eauto.
  - rewrite lookup_insert_ne by done. split; [|done]. destruct (m_bundles s !! bid b); [done|]. by rewrite lookup_insert_ne.
Qed.
Lemma held_step m e m' id : keys_ok (n_store (m_node m)) -> mstep host gen_reports parallel parse_record lifetime_exceeded m e m' -> held m id ->
  held m' id \/ removed [e] id \/ unmarked [e] id.
Proof.
  intros Hk Hs [(p & Hp & Hf & Hd) Hb].
  assert (Hsame : forall n', n_store (m_node n') = n_store (m_node m) -> held n' id).
  { intros n' E. unfold held, waiting. rewrite E. eauto 10. }
  assert (Hpush : forall now b n', n_store (m_node n') = mem_push now b (n_store (m_node m)) -> held n' id).
  { intros now b n' E. destruct (push_held now b _ _ _ Hp Hb) as [H1 H2]. unfold held, waiting. rewrite E. eauto 10. }
  destruct Hs as [m k _|m ep|m ep|m ep on|m ps|m u d _ _|m i k q o r p' n' Hi _ Ha|m i k q0 q p' Hi _|m i k q p' Hi _];
    try (left; by apply Hsame).
  { left. apply Hsame. by case_match. }
  destruct o; cbn [access resp] in *; try (left; apply Hsame; cbn; repeat (case_match || destruct_or? Ha || destruct_and? Ha); subst; done).
  - destruct Ha as [[_ ->]|[_ ->]]; left; [by eapply Hpush|by apply Hsame].
  - destruct Ha as [[_ ->]|(_ & _ & ->)]; left; [|by apply Hsame]. unfold mem_add_if_unknown. destruct (mem_has _ _); [by apply Hsame|by eapply Hpush].
  - destruct (decide (id0 = id)) as [->|Hne]; [right; left; exists i, r; left|]. left.
    assert (Hn' : n' = set_store (m_node m) (fst (mem_remove id0 (n_store (m_node m)))) \/ n' = m_node m).
    { destruct Ha as [[_ ->]|[[_ ->]|(_ & _ & ->)]]; auto. }
    destruct Hn' as [->| ->]; [|by apply Hsame]. unfold held, waiting. cbn [m_node n_store set_store].
    unfold mem_remove. destruct (m_meta (n_store (m_node m)) !! id0) as [q'|] eqn:Eq; [|by eauto 10].
    unfold mem_update. rewrite tombstone_id, (Hk _ _ Eq), Eq. cbn [m_bundles m_meta].
    destruct (m_bundles (n_store (m_node m)) !! id0); cbn [fst m_bundles m_meta];
      rewrite ?lookup_delete_ne, lookup_insert_ne by done; eauto 10.
  - destruct Ha as [[Er ->]|[_ ->]]; [|left; by apply Hsame]. unfold mem_update in *.
    destruct (m_meta (n_store (m_node m)) !! p_id p0) as [q'|] eqn:Eq; [|left; by apply Hsame].
    destruct (decide (p_id p0 = id)) as [<-|Hne].
    + destruct (has_constraint p0 ForwardPending) eqn:E1; [destruct (has_constraint p0 Deleted) eqn:E2|].
      * right. right. exists i, p0. cbn in Er. subst r. split; [left|]. auto.
      * left. unfold held, waiting. cbn [m_node n_store set_store fst m_bundles m_meta]. rewrite lookup_insert. eauto 10.
      * right. right. exists i, p0. cbn in Er. subst r. split; [left|]. auto.
    + left. unfold held, waiting. cbn [m_node n_store set_store fst m_bundles m_meta]. rewrite lookup_insert_ne by done. eauto 10.
Qed.
Lemma removed_l t1 t2 id : removed t1 id -> removed (t1 ++ t2) id.
Proof. intros (j & r & H). exists j, r. apply elem_of_app. by left. Qed.
Lemma unmarked_l t1 t2 id : unmarked t1 id -> unmarked (t1 ++ t2) id.
Proof. intros (j & p & H & H'). exists j, p. split; [apply elem_of_app; by left|done]. Qed.
Lemma removed_r t1 t2 id : removed t2 id -> removed (t1 ++ t2) id.
Proof. intros (j & r & H). exists j, r. apply elem_of_app. by right. Qed.
Lemma unmarked_r t1 t2 id : unmarked t2 id -> unmarked (t1 ++ t2) id.
Proof. intros (j & p & H & H'). exists j, p. split; [apply elem_of_app; by right|done]. Qed.
Lemma held_path m0 t m1 id : lives m0 -> path m0 t m1 -> held m0 id -> held m1 id \/ removed t id \/ unmarked t id.
Proof.
  intros Hl Hp. revert Hl. induction Hp as [m|m e m1 es m' Hs Hp IH]; intros Hl Hh; [by left|].
  destruct (held_step _ _ _ _ (lives_keys _ _ _ _ _ _ Hl) Hs Hh) as [H|[H|H]].
  - destruct (IH (lives_step _ _ _ _ _ _ _ _ Hl Hs) H) as [?|[?|?]]; [by left|right; left; by apply (removed_r [e])|right; right; by apply (unmarked_r [e])].
  - right. left. by apply (removed_l [e]).
  - right. right. by apply (unmarked_l [e]).
Qed.
Theorem C143_tried_again_partial : forall m m0 tr m' i id,
  lives m -> restarted m m0 -> path m0 tr m' -> completed m' i KJanitor ->
  is_Some (m_bundles (n_store (m_node m)) !! id) -> waiting m0 id ->
  tries tr i id \/ not_saved tr i id \/ does tr i Accepting false \/ removed tr id \/ unmarked tr id.
Proof.
  intros m m0 tr m' i id Hl Hr Hp Hi Hb Hw.
  assert (Hl0 : lives m0) by (by eapply lives_again). destruct Hr as (Hlb & H0 & _).
  destruct (C141_round_tries_all m0 tr m' i id (conj Hl0 H0) Hp Hi) as [?|[?|[?|Hm]]]; [tauto..|].
  destruct Hm as (t1 & l & t2 & m1 & -> & Hp1 & _ & Hn).
  assert (Hh : held m0 id). { split; [done|]. by destruct Hlb. }
  destruct (held_path _ _ _ _ Hl0 Hp1 Hh) as [[H _]|[H|H]]; [done|..].
  - do 3 right. left. by apply removed_l.
  - do 4 right. by apply unmarked_l.
Qed.
(** what is stored is stored afterwards, and what waits goes on waiting, unless
    it was being removed *)
Theorem C143_nothing_lost : forall m m0 id b,
  lives m -> restarted m m0 -> m_bundles (n_store (m_node m)) !! id = Some b ->
  m_bundles (n_store (m_node m0)) !! id = Some b /\
  forall p, m_meta (n_store (m_node m)) !! id = Some p ->
    m_meta (n_store (m_node m0)) !! id = Some p \/ m_meta (n_store (m_node m0)) !! id = Some (tombstone p).
Proof.
  intros m m0 id b Hl [Hlb _] Hb. split; [by destruct Hlb|]. intros p Hp. destruct Hlb as [|now b' Hn|id' p' Hp']; cbn [m_meta]; [by left|..].
  - left. rewrite lookup_insert_ne; [done|]. intros <-. congruence.
  - destruct (decide (id' = id)) as [->|Hne]; [|left; by rewrite lookup_insert_ne]. rewrite lookup_insert. right. congruence.
Qed.
End statements.
Print Assumptions C141_round_tries_all.
Print Assumptions C141_oldest_first.
Print Assumptions C141_started_task_asks.
Print Assumptions C142_round_removes_overdue.
Print Assumptions C143_tried_again_partial.
Print Assumptions C143_nothing_lost.

(** Every stored bundle for another node, marked to be passed on or not. *)
Definition C143_full : Prop :=
  forall host gen_reports parallel parse_record lifetime_exceeded m m0 tr m' i b,
    lives host gen_reports parallel parse_record lifetime_exceeded m -> restarted m m0 ->
    path host gen_reports parallel parse_record lifetime_exceeded m0 tr m' -> completed m' i KJanitor ->
    m_bundles (n_store (m_node m)) !! bid b = Some b -> eid_node (b_dst b) <> eid_node host ->
    tries tr i (bid b) \/ not_saved tr i (bid b) \/ does tr i Accepting false \/ removed tr (bid b).

(** ** Cases *)
(** two bundles for n2; the younger one comes first, the transmissions fail *)
Definition young := Bundle (asks false false false false) (Dtn "n2" "in") (Dtn "n1" "app") DtnNone 1000 0 5000 0 0
  [Block 1 1 no_kflags (CData [1])].
Definition old := Bundle (asks false false false false) (Dtn "n2" "in") (Dtn "n9" "app") DtnNone 900 0 5000 0 0
  [Block 1 1 no_kflags (CData [2])].
Definition bad := go false (fun _ => None) (fate (Some ([hop2], false)) false).
Definition life1 := bad [DoStart (KSubmit young); DoRun 0; DoRun 1; DoStart (KReceive old); DoRun 2; DoRun 3] (start_node [Dtn "n1" "app"] 2000000 2000).
(** started again *)
Definition again (m : machine) (dtn : N) : machine :=
  Machine (Node (n_store (m_node m)) [Endpoint (Dtn "n1" "app") [] false] ∅ (fun _ => 0) 3000000 dtn) [].
Lemma again_ok m dtn : restarted m (again m dtn).
Proof. split; [constructor|]. split; [done|]. split; [done|]. cbn. by intros x ->%elem_of_list_singleton. Qed.
Definition lives1 := lives node1 false false (fun _ => None) (fun _ _ => false).
Lemma script_lives o l m : lives1 m -> lives1 (snd (go false (fun _ => None) o l m)).
Proof. intros H. eapply path_lives; [|exact H]. apply script_path. Qed.
Lemma start_lives eps u d : lives1 (start_node eps u d).
Proof. apply lives_new, start_initial. Qed.
Lemma waits m id : match m_meta (n_store (m_node m)) !! id with Some p => has_constraint p ForwardPending && negb (has_constraint p Deleted) | None => false end = true -> waiting m id.
Proof.
  unfold waiting. destruct (m_meta _ !! id) as [p|]; [|done]. intros [H1 H2]%andb_true_iff. apply negb_true_iff in H2. eauto.
Qed.
Definition round_script := [DoStart KJanitor; DoRun 0].
Definition life2 := bad round_script (again (snd life1) 3000).
Definition asked_for (e : event) : option string := match e with EStep _ (LAct (Route p) _) => Some (p_id p) | _ => None end.
Example C141_case :
  boots node1 false false (fun _ => None) (fun _ _ => false) (again (snd life1) 3000) /\
  path node1 false false (fun _ => None) (fun _ _ => false) (again (snd life1) 3000) (fst life2) (snd life2) /\
  completed (snd life2) 0 KJanitor /\
  waiting (again (snd life1) 3000) (bid young) /\ waiting (again (snd life1) 3000) (bid old) /\
  omap asked_for (fst life2) = [bid old; bid young].
Proof.
  split; [split; [|done]|].
  { eapply lives_again; [|apply again_ok]. apply script_lives, start_lives. }
  split; [apply script_path|]. split; [by vm_compute|]. split; [apply waits; by vm_compute|]. split; [apply waits; by vm_compute|]. by vm_compute.
Qed.
(** both are overdue at 7000 *)
Definition life3 := bad round_script (again (snd life1) 7000).
Definition removal_of (e : event) : option string := match e with EStep _ (LAct (SRemove id) true) => Some id | _ => None end.
Example C142_case :
  completed (snd life3) 0 KJanitor /\ overdue (again (snd life1) 7000) (bid old) /\
  length (omap removal_of (fst life3)) = 2%nat /\ omap asked_for (fst life3) = [] /\
  m_bundles (n_store (m_node (snd life3))) !! bid old = None.
Proof.
  split; [by vm_compute|]. split; [|by vm_compute].
  assert (H : match m_meta (n_store (m_node (again (snd life1) 7000))) !! bid old with
    | Some p => negb (has_constraint p Deleted) && negb (p_life p =? 0) && (p_time p + p_life p <? 7000) | None => false end = true) by by vm_compute.
  unfold overdue. destruct (m_meta _ !! bid old) as [p|]; [|done]. apply andb_true_iff in H as [[H1 H2]%andb_true_iff H3].
  exists p. split; [done|]. split; [by apply negb_true_iff|]. split; [lia|]. cbn [again m_node n_dtn]. lia.
Qed.

(** the node stops right after it has saved the bundle *)
Definition cut := bad [DoStart (KReceive old); DoSteps 0 3] (start_node [Dtn "n1" "app"] 2000000 2000).
Definition life4 := bad round_script (again (snd cut) 3000).
Theorem C143_full_refuted : ~ C143_full.
Proof.
  intros H. specialize (H node1 false false (fun _ => None) (fun _ _ => false) (snd cut) (again (snd cut) 3000) (fst life4) (snd life4) 0%nat old).
  assert (Hn : forall f : event -> bool, forallb (fun e => negb (f e)) (fst life4) = true -> forall e, e ∈ fst life4 -> f e = false) by (intros f Hf e; by apply never_ev).
  destruct H as [(p & e & _ & Hin & He)|[(p & _ & Hd)|[Hd|(j & r & Hd)]]].
  - apply script_lives, start_lives.
  - apply again_ok.
  - apply script_path.
  - by vm_compute.
  - by vm_compute.
  - by vm_compute.
  - apply (Hn (fun e => match e with EStep _ (LSpawn _) | EStep _ (LAct (Route _) _) => true | _ => false end)) in Hin; [|by vm_compute].
    by destruct He as [-> |[a ->]].
  - by apply (Hn (fun e => match e with EStep _ (LAct (SUpdate _) _) => true | _ => false end)) in Hd; [|vm_compute].
  - by apply (Hn (fun e => match e with EStep _ (LAct Accepting false) => true | _ => false end)) in Hd; [|vm_compute].
  - by apply (Hn (fun e => match e with EStep _ (LAct (SRemove _) _) => true | _ => false end)) in Hd; [|vm_compute].
Qed.
Print Assumptions C143_full_refuted.
Example C143_case : is_Some (m_bundles (n_store (m_node (snd life1))) !! bid old) /\ waiting (again (snd life1) 3000) (bid old) /\
  completed (snd life2) 0 KJanitor /\ does (fst life4) 0 Accepting true.
Proof. split; [eexists; by vm_compute|]. split; [apply waits; by vm_compute|]. split; [by vm_compute|]. apply elem_of_list_In. vm_compute. auto 10. Qed.
