(** C171: a removed bundle stays removed while several tasks work. *)
From stdpp Require Import prelude strings pretty gmap sorting.
From Coq Require Import NArith Lia.
From Verif Require Import Core StoreMem Peers Routing Pipeline PipelineBase PipelineProofs PipelineInv PipelineRun TransferProofs Props_Transfer Props_Cause JanitorProofs Restart.
Open Scope N_scope.

(** ** Specification *)
(** the bundle comes to the node again: it is received or submitted, or the node
    makes a report with this id *)
Definition comes_again (t : list event) (id : string) : Prop :=
  exists b, bid b = id /\
    (EStart (KReceive b) ∈ t \/ EStart (KSubmit b) ∈ t \/ exists j b0 st rs, does t j (NewReport b0 st rs) (Some b)).
(** its content is put into the store *)
Definition stored_in (t : list event) (id : string) : Prop :=
  exists j b, bid b = id /\ (does t j (SPush b) true \/ does t j (SAdd b) (Some true)).
(** its metadata are written *)
Definition rewritten (t : list event) (id : string) : Prop := exists j p, p_id p = id /\ does t j (SUpdate p) true.
(** [removed_then t1 i id t2 j o r]: the bundle is removed after [t1]; then [t2]
    happens; then [o] is answered with [r] *)
Definition removed_then (t1 : list event) (i : nat) (id : string) (t2 : list event) (j : nat) (o : act) (r : resp o) : list event :=
  t1 ++ EStep i (LAct (SRemove id) true) :: t2 ++ [EStep j (LAct o r)].

(** A removed bundle that does not come to the node again cannot be read any more ... *)
Definition C171_gone_full : Prop := forall host gen_reports parallel parse_record lifetime_exceeded t1 i id t2 j r m,
  run host gen_reports parallel parse_record lifetime_exceeded (removed_then t1 i id t2 j (SGet id) r) m ->
  ~ comes_again t2 id -> r = None.
(** ... and is not listed among the bundles to be passed on. *)
Definition C171_not_offered_full : Prop := forall host gen_reports parallel parse_record lifetime_exceeded t1 i id t2 j ids m,
  run host gen_reports parallel parse_record lifetime_exceeded (removed_then t1 i id t2 j SForwarding ids) m ->
  ~ comes_again t2 id -> id ∉ ids.

(** ** Proofs *)
Section props.
Context (host : eid) (gen_reports parallel : bool) (parse_record : list N -> option arecord)
        (lifetime_exceeded : N -> bundle -> bool).
Notation run := (run host gen_reports parallel parse_record lifetime_exceeded).
Notation mstep := (mstep host gen_reports parallel parse_record lifetime_exceeded).
Notation path := (path host gen_reports parallel parse_record lifetime_exceeded).
Notation access := (access host lifetime_exceeded).

Definition absent (id : string) (s : mem) : Prop := m_bundles s !! id = None.
Definition quiet (id : string) (s : mem) : Prop := forall p, m_meta s !! id = Some p -> has_constraint p ForwardPending = false.
Lemma run_keys tr m : run tr m -> keys_ok (n_store (m_node m)).
Proof.
  induction 1 as [m (E & _)|tr m e m' _ IH Hs]; [|by eapply mstep_keys].
  rewrite E. intros id p. cbn. by rewrite lookup_empty.
Qed.
Lemma remove_state id s p : keys_ok s -> m_meta s !! id = Some p ->
  m_bundles (fst (mem_remove id s)) = delete id (m_bundles s) /\ m_meta (fst (mem_remove id s)) = <[id := tombstone p]> (m_meta s).
Proof.
  intros Hk E. unfold mem_remove. rewrite E. unfold mem_update. rewrite tombstone_id, (Hk _ _ E), E. cbn.
  destruct (m_bundles s !! id) eqn:Eb; cbn; [done|]. by rewrite delete_notin.
Qed.
Lemma remove_other id id' s : keys_ok s -> id <> id' ->
  m_bundles (fst (mem_remove id' s)) !! id = m_bundles s !! id /\ m_meta (fst (mem_remove id' s)) !! id = m_meta s !! id.
Proof.
  intros Hk Hne. destruct (m_meta s !! id') as [p|] eqn:E.
  - destruct (remove_state _ _ _ Hk E) as [-> ->]. by rewrite lookup_delete_ne, lookup_insert_ne.
  - unfold mem_remove. by rewrite E.
Qed.
(** what an access can change about the bundle *)
Lemma access_absent n o r n' id : access n o r n' -> keys_ok (n_store n) -> absent id (n_store n) ->
  (forall b, bid b = id -> ~ (LAct o r = LAct (SPush b) true \/ LAct o r = LAct (SAdd b) (Some true))) ->
  absent id (n_store n').
Proof.
  intros Ha Hk H0 Hno. unfold absent in *.
  assert (Hpush : forall now b, bid b <> id -> m_bundles (mem_push now b (n_store n)) !! id = None).
  { intros now b Hb. unfold mem_push. cbn. by rewrite lookup_insert_ne. }
  assert (Hrem : forall id', m_bundles (fst (mem_remove id' (n_store n))) !! id = None).
  { intros id'. destruct (decide (id = id')) as [<-|Hne]; [|by rewrite (proj1 (remove_other _ _ _ Hk Hne))].
    destruct (m_meta (n_store n) !! id) as [p|] eqn:E; [destruct (remove_state _ _ _ Hk E) as [-> _]; by rewrite lookup_delete|].
    unfold mem_remove. by rewrite E. }
  destruct o; cbn in Ha; repeat (case_match || destruct_or? Ha || destruct_and? Ha); subst; cbn; try done; auto.
  - apply (Hpush (n_time n) b). intros E. apply (Hno b E). by left.
  - revert Hno. unfold mem_add_if_unknown. case_match; cbn; [done|]. intros Hno. apply (Hpush (n_time n) b). intros E. apply (Hno b E). by right.
  - unfold mem_update. case_match; done.
Qed.
Lemma access_quiet n o r n' id : access n o r n' -> keys_ok (n_store n) -> absent id (n_store n) -> quiet id (n_store n) ->
  (forall b, bid b = id -> ~ (LAct o r = LAct (SPush b) true \/ LAct o r = LAct (SAdd b) (Some true))) ->
  (forall p, p_id p = id -> LAct o r <> LAct (SUpdate p) true) ->
  quiet id (n_store n').
Proof.
  intros Ha Hk Hab H0 Hno Hup. unfold quiet in *.
  assert (Hpush : forall now b p, bid b <> id -> m_meta (mem_push now b (n_store n)) !! id = Some p -> has_constraint p ForwardPending = false).
  { intros now b p Hb. unfold mem_push. cbn. case_match; [apply H0|]. rewrite lookup_insert_ne by done. apply H0. }
  assert (Hrem : forall id' p, m_meta (fst (mem_remove id' (n_store n))) !! id = Some p -> has_constraint p ForwardPending = false).
  { intros id' p. destruct (decide (id = id')) as [<-|Hne]; [|rewrite (proj2 (remove_other _ _ _ Hk Hne)); apply H0].
    destruct (m_meta (n_store n) !! id) as [q|] eqn:E.
    - destruct (remove_state _ _ _ Hk E) as [_ ->]. rewrite lookup_insert. by intros [= <-].
    - unfold mem_remove. rewrite E. cbn. congruence. }
  destruct o; cbn in Ha; repeat (case_match || destruct_or? Ha || destruct_and? Ha); subst; cbn; try done; eauto.
  - intros p. apply (Hpush (n_time n) b). intros E. apply (Hno b E). by left.
  - revert Hno. unfold mem_add_if_unknown. case_match; cbn; [done|]. intros Hno p. apply (Hpush (n_time n) b). intros E. apply (Hno b E). by right.
  - revert Hup. unfold mem_update. destruct (m_meta (n_store n) !! p_id p) eqn:E; cbn; [|done]. intros Hup q.
    rewrite lookup_insert_ne; [apply H0|]. intros E'. by apply (Hup p).
Qed.
Lemma step_access m e m' : mstep m e m' ->
  n_store (m_node m') = n_store (m_node m) \/ exists j o r, e = EStep j (LAct o r) /\ access (m_node m) o r (m_node m').
Proof. intros Hs. destruct Hs; cbn; auto; [case_match; auto|right; eauto 10]. Qed.
Lemma path_absent id m t m' : path m t m' -> keys_ok (n_store (m_node m)) -> absent id (n_store (m_node m)) ->
  ~ stored_in t id ->
  absent id (n_store (m_node m')) /\ (quiet id (n_store (m_node m)) -> ~ rewritten t id -> quiet id (n_store (m_node m'))).
Proof.
  induction 1 as [m|m e m1 t m' Hs Hp IH]; intros Hk Ha Hno; [done|].
  assert (Hk1 := mstep_keys _ _ _ _ _ _ _ _ Hs Hk).
  assert (Hno1 : ~ stored_in t id).
  { intros (j & b & E & Hd). apply Hno. exists j, b. split; [done|]. unfold does in *. destruct Hd; [left|right]; by right. }
  assert (Hrw : ~ rewritten (e :: t) id -> ~ rewritten t id).
  { intros Hn (j & p & E & Hd). apply Hn. exists j, p. split; [done|]. by right. }
  apply step_access in Hs as [E|(j & o & r & -> & Hx)].
  - unfold absent, quiet in *. rewrite E in *. destruct (IH Hk1 Ha Hno1) as [H1 H2]. split; [done|]. auto.
  - assert (Hn : forall b, bid b = id -> ~ (LAct o r = LAct (SPush b) true \/ LAct o r = LAct (SAdd b) (Some true))).
    { intros b E Hd. apply Hno. exists j, b. split; [done|]. unfold does. destruct Hd as [-> | ->]; [left|right]; by left. }
    destruct (IH Hk1 (access_absent _ _ _ _ _ Hx Hk Ha Hn) Hno1) as [H1 H2]. split; [done|]. intros Hq Hr.
    apply H2; [|auto]. eapply access_quiet; try done. intros p E Ep. apply Hr. exists j, p. split; [done|]. rewrite Ep. by left.
Qed.
Lemma path_keys m t m' : path m t m' -> keys_ok (n_store (m_node m)) -> keys_ok (n_store (m_node m')).
Proof. induction 1 as [|? ? ? ? ? ? ? IH]; [done|]. intros. apply IH. by eapply mstep_keys. Qed.
Lemma removed_state t1 i id t2 j o r m : run (removed_then t1 i id t2 j o r) m -> ~ stored_in t2 id ->
  exists m1 m2, access (m_node m1) o r (m_node m2) /\ keys_ok (n_store (m_node m1)) /\
    absent id (n_store (m_node m1)) /\ (~ rewritten t2 id -> quiet id (n_store (m_node m1))).
Proof.
  unfold removed_then. intros Hr Hno.
  destruct (run_passes _ _ _ _ _ _ _ _ Hr) as (m0 & rest & E & H0 & Hp). apply app_inv_head in E as <-.
  change (EStep i (LAct (SRemove id) true) :: t2 ++ [EStep j (LAct o r)]) with ([] ++ EStep i (LAct (SRemove id) true) :: (t2 ++ [EStep j (LAct o r)])) in Hp.
  destruct (path_access _ _ _ _ _ _ _ _ _ _ _ _ Hp) as (m0' & ma & Hn & Ha & Hp2 & _). assert (m0' = m0) as -> by (by inversion Hn). clear Hn.
  assert (Hk0 := run_keys _ _ H0). assert (Hka : keys_ok (n_store (m_node ma))) by (by eapply access_keys).
  destruct (path_access _ _ _ _ _ _ _ _ _ _ _ _ Hp2) as (m1 & m2 & H1 & Hx & _ & _).
  assert (Hst : absent id (n_store (m_node ma)) /\ quiet id (n_store (m_node ma))).
  { cbn in Ha. assert (He : exists p, m_meta (n_store (m_node m0)) !! id = Some p /\ m_node ma = set_store (m_node m0) (fst (mem_remove id (n_store (m_node m0))))).
    { destruct Ha as [[E1 E2]|[[? _]|(_ & [p E1] & E2)]]; [|done|eauto].
      unfold mem_remove in E1. destruct (m_meta (n_store (m_node m0)) !! id) as [p|] eqn:Ep; [by eauto|done]. }
    destruct He as (p & Ep & ->). cbn [n_store set_store]. destruct (remove_state _ _ _ Hk0 Ep) as [E1 E2]. unfold absent, quiet. rewrite E1, E2.
    rewrite lookup_delete, lookup_insert. split; [done|]. by intros q [= <-]. }
  destruct Hst as [Hab Hq]. destruct (path_absent id _ _ _ H1 Hka Hab Hno) as [G1 G2].
  exists m1, m2. split_and!; try done; [eapply path_keys; eauto|auto].
Qed.

(** ** C171 *)
(** Unless its content is put into the store again, nobody can read a removed bundle. *)
Theorem C171_gone_partial : forall t1 i id t2 j r m,
  run (removed_then t1 i id t2 j (SGet id) r) m -> ~ stored_in t2 id -> r = None.
Proof.
  intros t1 i id t2 j r m Hr Hno. destruct (removed_state _ _ _ _ _ _ _ _ Hr Hno) as (m1 & m2 & Ha & _ & Hab & _).
  cbn in Ha. destruct Ha as [-> _]. exact Hab.
Qed.
(** If its metadata are not written again either, it is not listed among the
    bundles to be passed on. *)
Theorem C171_not_offered_partial : forall t1 i id t2 j ids m,
  run (removed_then t1 i id t2 j SForwarding ids) m -> ~ stored_in t2 id -> ~ rewritten t2 id -> id ∉ ids.
Proof.
  intros t1 i id t2 j ids m Hr Hno Hw. destruct (removed_state _ _ _ _ _ _ _ _ Hr Hno) as (m1 & m2 & Ha & Hk & _ & Hq).
  specialize (Hq Hw). cbn in Ha. destruct Ha as [-> _]. unfold mem_forwarding, mem_filter, mem_packs.
  intros (p & -> & Hp)%elem_of_list_fmap. apply elem_of_list_filter in Hp as [Hf Hp].
  apply elem_of_list_fmap in Hp as ([k q] & -> & Hq2). cbn [snd] in *. apply elem_of_map_to_list in Hq2.
  pose proof (Hk _ _ Hq2) as Ek. rewrite Ek in Hq. cbn [forallb] in Hf. by rewrite (Hq _ Hq2) in Hf.
Qed.
(** Whatever is written about it: unless its content is put into the store again,
    a removed bundle is only sent by a task that had read it before the removal. *)
Theorem C171_sent_partial : forall t1 i id t2 j s b r t3 m,
  run (t1 ++ EStep i (LAct (SRemove id) true) :: t2 ++ EStep j (LAct (Transfer s b) r) :: t3) m -> bid b = id ->
  ~ stored_in t2 id -> exists stored, does t1 j (SGet id) (Some stored) /\ primary b = primary stored.
Proof.
  intros t1 i id t2 j s b r t3 m Hr <- Hno.
  replace (t1 ++ EStep i (LAct (SRemove (bid b)) true) :: t2 ++ EStep j (LAct (Transfer s b) r) :: t3)
    with ((t1 ++ EStep i (LAct (SRemove (bid b)) true) :: t2) ++ EStep j (LAct (Transfer s b) r) :: t3) in Hr by (by rewrite <- app_assoc).
  destruct (C34_previous_node_and_rest _ _ _ _ _ _ _ _ _ _ _ _ Hr) as (stored & m0 & since & (ta & E & Hta & Hb & _) & _ & Hp & _).
  exists stored. split; [|done].
  assert (Hin : EStep j (LAct (SGet (bid b)) (Some stored)) ∈ t1 \/
    exists t4 t5, t2 = t4 ++ EStep j (LAct (SGet (bid b)) (Some stored)) :: t5 /\ ta = t1 ++ EStep i (LAct (SRemove (bid b)) true) :: t4).
  { clear -E. revert ta E. induction t1 as [|e t1 IH]; intros [|e' ta] E; cbn in E.
    - done.
    - right. injection E as <- E. by exists ta, since.
    - left. injection E as -> _. by left.
    - injection E as -> E. destruct (IH _ E) as [H|(t4 & t5 & -> & ->)]; [left; by right|right; eauto]. }
  destruct Hin as [Hin|(t4 & t5 & -> & ->)]; [done|exfalso].
  assert (Hno4 : ~ stored_in t4 (bid b)).
  { intros (x & b' & Eb & Hd). apply Hno. exists x, b'. split; [done|]. unfold does in *. destruct Hd; [left|right]; apply elem_of_app; by left. }
  assert (Hr' : exists m', run (removed_then t1 i (bid b) t4 j (SGet (bid b)) (Some stored)) m').
  { unfold removed_then. clear -Hr.
    replace ((t1 ++ EStep i (LAct (SRemove (bid b)) true) :: t4 ++ EStep j (LAct (SGet (bid b)) (Some stored)) :: t5) ++ EStep j (LAct (Transfer s b) r) :: t3)
      with ((t1 ++ EStep i (LAct (SRemove (bid b)) true) :: t4 ++ [EStep j (LAct (SGet (bid b)) (Some stored))]) ++ (t5 ++ EStep j (LAct (Transfer s b) r) :: t3)) in Hr.
    - destruct (run_passes _ _ _ _ _ _ _ _ Hr) as (m0 & rest & _ & H0 & _). eauto.
    - rewrite <- !app_assoc. cbn. rewrite <- !app_assoc. done. }
  destruct Hr' as [m' Hr']. by apply C171_gone_partial in Hr'.
Qed.
End props.
Print Assumptions C171_gone_partial.
Print Assumptions C171_not_offered_partial.
Print Assumptions C171_sent_partial.

(** ** Examples *)
Lemma cut_at (tr : list event) n k e1 e2 : tr !! n = Some e1 -> drop (S n) tr !! k = Some e2 ->
  tr = take n tr ++ e1 :: take k (drop (S n) tr) ++ e2 :: drop (S k) (drop (S n) tr).
Proof. intros H1 H2. rewrite (take_drop_middle _ _ _ H2). by rewrite (take_drop_middle _ _ _ H1). Qed.
Lemma cut_last tr n i id k j o r : tr !! n = Some (EStep i (LAct (SRemove id) true)) -> drop (S n) tr !! k = Some (EStep j (LAct o r)) ->
  drop (S k) (drop (S n) tr) = [] -> tr = removed_then (take n tr) i id (take k (drop (S n) tr)) j o r.
Proof. intros H1 H2 H3. unfold removed_then. rewrite <- H3. by apply cut_at. Qed.
Definition comes_event (id : string) (e : event) : bool :=
  match e with
  | EStart (KReceive b) | EStart (KSubmit b) | EStep _ (LAct (NewReport _ _ _) (Some b)) => bool_decide (bid b = id)
  | _ => false
  end.
Lemma not_again t id : forallb (fun e => negb (comes_event id e)) t = true -> ~ comes_again t id.
Proof.
  intros H (b & <- & [Hb|[Hb|(j & b0 & st & rs & Hb)]]); apply (never_ev _ _ _ H) in Hb; cbn in Hb; by apply bool_decide_eq_false in Hb.
Qed.
Definition stored_event (id : string) (e : event) : bool :=
  match e with
  | EStep _ (LAct (SPush b) true) | EStep _ (LAct (SAdd b) (Some true)) => bool_decide (bid b = id)
  | _ => false
  end.
Lemma not_stored t id : forallb (fun e => negb (stored_event id e)) t = true -> ~ stored_in t id.
Proof. intros H (j & b & <- & [Hb|Hb]); apply (never_ev _ _ _ H) in Hb; cbn in Hb; by apply bool_decide_eq_false in Hb. Qed.
Definition rewritten_event (id : string) (e : event) : bool :=
  match e with EStep _ (LAct (SUpdate p) true) => bool_decide (p_id p = id) | _ => false end.
Lemma not_rewritten t id : forallb (fun e => negb (rewritten_event id e)) t = true -> ~ rewritten t id.
Proof. intros H (j & p & <- & Hb); apply (never_ev _ _ _ H) in Hb; cbn in Hb; by apply bool_decide_eq_false in Hb. Qed.

(** A bundle in transit was received and its forwarding is about to start, when
    the user deletes it.  Forwarding starts by writing the metadata it knows, and
    from then on the bundle is listed, although there is nothing to send. *)
Definition run171 := go false (fun _ => None) (fate (Some ([hop2], false)) true)
  [DoStart (KReceive transit); DoRun 0; DoStart (KDelete (bid transit)); DoRun 2; DoRun 1; DoStart KJanitor; DoSteps 3 4] (start_node [] 2000000 1000).
Lemma run171_ok : run node1 false false (fun _ => None) (fun _ _ => false) (fst run171) (snd run171).
Proof. apply go_ok. Qed.
Lemma run171_cut : fst run171 = removed_then (take 11 (fst run171)) 2 (bid transit) (take 7 (drop 12 (fst run171))) 3 SForwarding [bid transit].
Proof. apply cut_last; by vm_compute. Qed.
Theorem C171_not_offered_refuted : ~ C171_not_offered_full.
Proof.
  intros H. pose proof run171_ok as Hr. rewrite run171_cut in Hr.
  apply (H _ _ _ _ _ _ _ _ _ _ _ _ Hr); [|by left]. apply not_again. by vm_compute.
Qed.
Print Assumptions C171_not_offered_refuted.
(** nothing was stored after the removal: what the other task found is that the bundle is gone *)
Example C171_gone_case : ~ stored_in (take 7 (drop 12 (fst run171))) (bid transit) /\
  EStep 1 (LAct (SGet (bid transit)) None) ∈ take 7 (drop 12 (fst run171)).
Proof. split; [apply not_stored; by vm_compute|]. apply elem_of_list_lookup. exists 2%nat. by vm_compute. Qed.

(** The content of a received bundle is stored a second time when its blocks were
    looked at; the user deletes it in between. *)
Definition run171r := go false (fun _ => None) (fate (Some ([hop2], false)) true)
  [DoStart (KReceive transit); DoSteps 0 4; DoStart (KDelete (bid transit)); DoRun 1; DoSteps 0 2] (start_node [] 2000000 1000).
Lemma run171r_ok : run node1 false false (fun _ => None) (fun _ _ => false) (fst run171r) (snd run171r).
Proof. apply go_ok. Qed.
Lemma run171r_cut : fst run171r = removed_then (take 6 (fst run171r)) 1 (bid transit) (take 1 (drop 7 (fst run171r))) 0 (SGet (bid transit)) (Some transit).
Proof. apply cut_last; by vm_compute. Qed.
Theorem C171_gone_refuted : ~ C171_gone_full.
Proof.
  intros H. pose proof run171r_ok as Hr. rewrite run171r_cut in Hr.
  apply (H _ _ _ _ _ _ _ _ _ _ _ _) in Hr; [done|]. apply not_again. by vm_compute.
Qed.
Print Assumptions C171_gone_refuted.

(** The user deletes the bundle after the task has read it: it is still sent, and
    it is not listed afterwards. *)
Definition run171s := go false (fun _ => None) (fate (Some ([hop2], false)) true)
  [DoStart (KReceive transit); DoRun 0; DoSteps 1 3; DoStart (KDelete (bid transit)); DoRun 2; DoRun 1; DoStart KJanitor; DoSteps 3 3] (start_node [] 2000000 1000).
Lemma run171s_ok : run node1 false false (fun _ => None) (fun _ _ => false) (fst run171s) (snd run171s).
Proof. apply go_ok. Qed.
Example C171_not_offered_case :
  fst run171s = removed_then (take 14 (fst run171s)) 2 (bid transit) (take 8 (drop 15 (fst run171s))) 3 SForwarding [] /\
  ~ stored_in (take 8 (drop 15 (fst run171s))) (bid transit) /\ ~ rewritten (take 8 (drop 15 (fst run171s))) (bid transit).
Proof.
  split; [apply cut_last; by vm_compute|]. split; [apply not_stored; by vm_compute|apply not_rewritten; by vm_compute].
Qed.
Example C171_sent_case :
  existsb (fun e => match e with EStep 1 (LAct (Transfer _ b) true) => bool_decide (bid b = bid transit) | _ => false end)
    (take 8 (drop 15 (fst run171s))) = true /\
  does (take 14 (fst run171s)) 1 (SGet (bid transit)) (Some transit).
Proof. split; [by vm_compute|]. apply elem_of_list_lookup. exists 12%nat. by vm_compute. Qed.
