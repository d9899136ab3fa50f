(** C36-C41, C64: status reports, refused submissions, local bundles, failed
    forwarding attempts, unknown blocks, and why bundles leave the store. *)
From stdpp Require Import prelude strings pretty gmap sorting.
From Coq Require Import NArith Lia ZifyBool ZifyN ZifyNat.
From Verif Require Import Core StoreMem Peers Routing Pipeline PipelineBase PipelineProofs PipelineInv PipelineRun TransferProofs Props_Transfer ReceptionProofs Props_Reception CauseProofs LocalProofs Group.
Open Scope N_scope.

(** ** Specification *)
Definition received (tr : list event) (i : nat) (b : bundle) : Prop := tasks tr !! i = Some (KReceive b).
Definition submitted (tr : list event) (i : nat) (b : bundle) : Prop := tasks tr !! i = Some (KSubmit b).
(** task [i] works on transmissions: an attempt for one bundle, or a janitor run *)
Definition forwards (tr : list event) (i : nat) : Prop :=
  tasks tr !! i = Some KJanitor \/ exists p, tasks tr !! i = Some (KForward p).
(** what task [i] did in [tr] *)
Definition does (tr : list event) (i : nat) (o : act) (r : resp o) : Prop := EStep i (LAct o r) ∈ tr.
(** all bundles the node ever had to do with *)
Definition seen (tr : list event) (b : bundle) : Prop :=
  EStart (KReceive b) ∈ tr \/ EStart (KSubmit b) ∈ tr \/
  exists i b0 st rs, does tr i (NewReport b0 st rs) (Some b).
(** an application is registered for the endpoint *)
Definition registered (m : machine) (e : eid) : Prop := exists x, x ∈ n_eps (m_node m) /\ ep_eid x = e.
(** the payload *)
Definition payload (b : bundle) : option (list N) :=
  first_block 1 b ≫= fun k => match k_data k with CData d => Some d | _ => None end.
(** an unknown block that demands deletion of the bundle *)
Definition must_delete (b : bundle) : Prop :=
  exists x, x ∈ b_blocks b /\ 11 <= k_type x /\ kf_delete (k_flags x) = true.
(** the blocks that stay when flagged unknown ones are dropped *)
Definition kept_blocks (l : list block) : list block :=
  filter (fun x => ~ (11 <= k_type x /\ kf_remove (k_flags x) = true)) l.

Lemma seen_born tr b : b ∈ born tr -> seen tr b.
Proof.
  unfold born. rewrite elem_of_list_In, in_flat_map. intros (e & He & Hb). apply elem_of_list_In in He.
  destruct e as [[]| | | | | |i [[]| |]]; try done; cbn in Hb; try (destruct Hb as [->|[]]; unfold seen; eauto).
  destruct r; [|done]. destruct Hb as [->|[]]. right. right. unfold does. eauto.
Qed.
Lemma did_does tr i o r : LAct o r ∈ did i tr <-> does tr i o r.
Proof.
  split; [apply did_elem|]. intros H. apply elem_of_list_In, in_flat_map. eexists. split; [by apply elem_of_list_In|].
  cbn. rewrite decide_True by done. by left.
Qed.
Lemma payload_record (parse : list N -> option arecord) b : record_of parse b = payload b ≫= parse.
Proof.
  unfold record_of, payload. rewrite first_block_find. change 1 with PAYLOAD_BLOCK. by destruct (block_by_type _ b) as [[? ? ? []]|].
Qed.

Section statements.
Context (host : eid) (gen_reports parallel : bool) (parse_record : list N -> option arecord)
        (lifetime_exceeded : N -> bundle -> bool).
Notation run := (run host gen_reports parallel parse_record lifetime_exceeded).
Notation mstep := (mstep host gen_reports parallel parse_record lifetime_exceeded).
Notation local := (is_local_node_id host).

(** the stored copy task [i] read has exceeded one of its limits *)
Definition over_limit (tr : list event) (i : nat) (id : string) : Prop :=
  exists b, does tr i (SGet id) (Some b) /\ bid b = id /\
    (does tr i (LifetimeOver b) true \/
     (exists limit count, hop_count b = Some (limit, count) /\ limit < (count + 1) mod 256) \/
     (exists a p now, age b = Some a /\ does tr i (SMeta id) (Some p) /\ does tr i Clock now /\
        (Z.of_N (b_life b) * 1000 <= (Z.of_N a + (Z.of_N now - Z.of_N (p_recv p))) mod 2^64)%Z)).
(** the expiry time of the bundle is over *)
Definition expired (tr : list event) (i : nat) (id : string) : Prop :=
  exists ps p now, does tr i SPacks ps /\ p ∈ ps /\ p_id p = id /\ does tr i DtnClock now /\
    p_life p <> 0 /\ (p_time p + p_life p) mod 2^64 < now.
(** the routing agent asked for the removal, and a transfer to one of the nodes
    it chose succeeded *)
Definition sent_and_asked (tr : list event) (i : nat) (id : string) : Prop :=
  exists p nodes s b, does tr i (Route p) (Some (nodes, true)) /\ p_id p = id /\ s ∈ nodes /\
    does tr i (Transfer s b) true /\ bid b = id.
(** a status report about the bundle was received for delivery here, or was
    transmitted *)
Definition reported (tr : list event) (i : nat) (id : string) (asserted : list bool) : Prop :=
  exists b, bf_admin (b_flags b) = true /\ payload b ≫= parse_record = Some (StatusReport asserted id) /\
    ((exists b0, (received tr i b0 \/ submitted tr i b0) /\ does tr i (SGet (bid b0)) (Some b)) \/
     (exists s, does tr i (Transfer s b) true)).
Inductive reason (tr : list event) (i : nat) (id : string) : Prop :=
| by_user : tasks tr !! i = Some (KDelete id) -> reason tr i id
| fetched e b : tasks tr !! i = Some (KPop e) -> does tr i (Pop e) (Some b) -> bid b = id -> ~ group (b_dst b) -> reason tr i id
| pushed b0 e b : received tr i b0 \/ submitted tr i b0 -> does tr i (Deliver e b) Handed -> bid b = id -> ~ group (b_dst b) -> reason tr i id
| by_expiry : tasks tr !! i = Some KJanitor -> expired tr i id -> reason tr i id
| by_limit : forwards tr i -> over_limit tr i id -> reason tr i id
| by_block b : received tr i b -> bid b = id -> must_delete b -> reason tr i id
| by_source b : submitted tr i b -> bid b = id -> b_src b <> DtnNone -> does tr i (HasEndpoint (b_src b)) false -> reason tr i id
| by_garbage b0 b : received tr i b0 \/ submitted tr i b0 -> bid b0 = id -> bf_admin (b_flags b0) = true ->
    does tr i (SGet id) (Some b) -> bf_admin (b_flags b) = false \/ payload b ≫= parse_record = None -> reason tr i id
| by_report l : reported tr i id l -> length l = 4%nat -> does tr i (SHas id) true -> reason tr i id
| by_routing : forwards tr i -> sent_and_asked tr i id -> reason tr i id
| by_routing_only p : forwards tr i -> does tr i (Route p) (Some ([], true)) -> p_id p = id -> reason tr i id.
End statements.

Section props.
Context (host : eid) (gen_reports parallel : bool) (parse_record : list N -> option arecord)
        (lifetime_exceeded : N -> bundle -> bool).
Notation run := (run host gen_reports parallel parse_record lifetime_exceeded).
Notation mstep := (mstep host gen_reports parallel parse_record lifetime_exceeded).
Notation passes := (passes host gen_reports parallel parse_record lifetime_exceeded).
Notation local := (is_local_node_id host).
Notation task_of := (task_of host gen_reports parallel parse_record).

Lemma run_cause t1 i l t2 m : run (t1 ++ EStep i l :: t2) m ->
  exists k, tasks t1 !! i = Some k /\ I_cause host gen_reports parse_record k (did i t1) l.
Proof. intros H. eapply run_safe; [|exact H]. intros k. by apply all_cause. Qed.
Lemma new_age_Z a now r : Z.of_N (new_age a now r) = ((Z.of_N a + (Z.of_N now - Z.of_N r)) mod 2^64)%Z.
Proof.
  unfold new_age. assert (H : r mod 2^64 < 2^64) by (apply N.mod_lt; done).
  rewrite N2Z.inj_mod, N2Z.inj_add, N2Z.inj_mod, N2Z.inj_sub, N2Z.inj_add, N2Z.inj_mod by lia.
  change (Z.of_N (2^64)) with (2^64)%Z.
  rewrite Z.add_mod_idemp_r by done.
  replace (Z.of_N a + (Z.of_N now + 2^64 - Z.of_N r mod 2^64))%Z with ((Z.of_N a + Z.of_N now - Z.of_N r mod 2^64) + 1 * 2^64)%Z by lia.
  rewrite Z.mod_add by done. rewrite Zminus_mod_idemp_r. f_equal. lia.
Qed.
Lemma registered_has m e : registered m e <-> has_endpoint e (m_node m) = true.
Proof.
  unfold registered, has_endpoint. rewrite existsb_exists. setoid_rewrite elem_of_list_In.
  split; intros (x & H1 & H2); exists x; (split; [done|]); [by apply bool_decide_eq_true|by apply bool_decide_eq_true in H2].
Qed.
Lemma run_looked t0 i e r t2 m : run (t0 ++ EStep i (LAct (HasEndpoint e) r) :: t2) m ->
  forall m0, passes (t0 ++ EStep i (LAct (HasEndpoint e) r) :: t2) m t0 m0 -> (r = true <-> registered m0 e).
Proof.
  intros _ m0 H. apply passes_access in H as (_ & m2 & -> & _). by rewrite registered_has.
Qed.
Lemma run_gets tr m i id b : run tr m -> does tr i (SGet id) (Some b) -> bid b = id.
Proof. intros Hr H. by destruct (iv_get _ _ (run_inv _ _ _ _ _ _ _ Hr) _ _ _ H). Qed.

(** ** C64 *)
(** Whatever task removes a bundle, it has one of the listed reasons ... *)
Theorem C64_every_removal_has_a_reason : forall t1 i id r t2 m,
  run (t1 ++ EStep i (LAct (SRemove id) r) :: t2) m -> reason parse_record t1 i id.
Proof.
  intros t1 i id r t2 m H. destruct (run_cause _ _ _ _ _ H) as (k & Hk & Hc). cbn [I_cause] in Hc.
  assert (exists m1, run t1 m1) as [m1 Hr] by (eapply run_app_inv; done).
  assert (Hf : fwd_kind k -> forwards t1 i).
  { destruct k; try done; intros _; [right; eauto|by left]. }
  destruct Hc as [->|e b -> Hin Hb Hs|e b [b0 Hkb] Hin Hb Hs|ps p now -> Hps Hp Hnow He Hid|j b Hk' Hg Hl Hb|j b Hk' Hg Hl Hb
    |j b a mt now Hk' Hg Ha Hm Hn Hl Hb|b -> Hin Hf' Hb|b -> Hs Hin Hb|b0 b Hkb Hb0 Hg Hsr Hb|b l Hsrc Ha Hrec Hlen Hin
    |p nodes s b b0 Hk' Hr' Hp Hs Hg Hsp Htr|p Hk' Hr' Hp].
  - by apply by_user.
  - apply (fetched _ _ _ _ e b); [done|by apply did_does|done|by apply not_group].
  - apply (pushed _ _ _ _ b0 e b); [destruct k; try done; injection Hkb as ->; auto|by apply did_does|done|by apply not_group].
  - apply by_expiry; [done|]. unfold has_expired in He. destruct (p_life p =? 0) eqn:El; [done|].
    apply N.eqb_neq in El. apply N.ltb_lt in He.
    exists ps, p, now. split; [by apply did_does|]. split; [done|]. split; [done|]. split; [by apply did_does|]. done.
  - apply by_limit; [by apply Hf|]. apply did_does in Hg. assert (E := run_gets _ _ _ _ _ Hr Hg). rewrite <- E, Hb in Hg.
    exists b. split; [done|]. split; [done|]. left. by apply did_does.
  - apply by_limit; [by apply Hf|]. apply did_does in Hg. assert (E := run_gets _ _ _ _ _ Hr Hg). rewrite <- E, Hb in Hg.
    exists b. split; [done|]. split; [done|]. right. left. rewrite hop_count_of. unfold hop_stage in Hl. unfold hop_of.
    destruct (block_by_type HOP_COUNT_BLOCK b) as [[? ? ? []]|]; try done.
    destruct (limit <? (count + 1) mod 256) eqn:E'; [|done]. apply N.ltb_lt in E'. eauto.
  - apply by_limit; [by apply Hf|]. apply did_does in Hg. assert (E := run_gets _ _ _ _ _ Hr Hg). rewrite <- E, Hb in Hg.
    exists b. split; [done|]. split; [done|]. right. right. exists a, mt, now. split.
    { unfold age. rewrite first_block_find. exact Ha. }
    split; [by apply did_does|]. split; [by apply did_does|]. rewrite <- new_age_Z. lia.
  - by apply (by_block _ _ _ _ b).
  - apply (by_source _ _ _ _ b); [done|done|done|by apply did_does].
  - apply (by_garbage _ _ _ _ b0 b); [destruct k; try done; injection Hkb as ->; auto|done|done|by apply did_does|].
    unfold sound_record in Hsr. apply andb_false_iff in Hsr as [?|Hsr]; [by left|]. right.
    apply bool_decide_eq_false in Hsr. rewrite <- payload_record. by destruct (record_of _ b); [destruct Hsr; eauto|].
  - apply (by_report _ _ _ _ l); [|done|by apply did_does]. exists b. split; [done|]. split; [by rewrite <- payload_record|].
    destruct Hsrc as [(b0 & Hkb & Hin')|[s Hs]]; [left|right; exists s; by apply did_does].
    exists b0. split; [destruct k; try done; injection Hkb as ->; auto|by apply did_does].
  - apply by_routing; [by apply Hf|]. exists p, nodes, s, b. split; [by apply did_does|]. split; [done|]. split; [done|].
    split; [by apply did_does|]. rewrite (same_primary_bid _ _ Hsp). eapply run_gets; [done|by apply did_does].
  - apply (by_routing_only _ _ _ _ p); [by apply Hf|by apply did_does|done].
Qed.
(** ... and in no other way does a bundle leave the store. *)
Theorem C64_only_removals_remove : forall tr m1 e m2 id, run tr m1 -> mstep m1 e m2 ->
  is_Some (mem_get id (n_store (m_node m1))) -> mem_get id (n_store (m_node m2)) = None ->
  exists i, e = EStep i (LAct (SRemove id) true) /\ reason parse_record tr i id.
Proof.
  intros tr m1 e m2 id H1 Hs Hb Ha. assert (H2 : run (tr ++ [e]) m2) by (by eapply run_step).
  assert (Hp := proj1 (present_step _ _ _ _ _ _ _ _ _ id H1 Hs)).
  assert (Hn : store_effect id (bool_decide (present m1 id)) e <> true).
  { intros E. apply Hp in E. unfold present in E. unfold mem_get in Ha. rewrite Ha in E. by destruct E. }
  rewrite bool_decide_eq_true_2 in Hn by exact Hb.
  assert (exists i, e = EStep i (LAct (SRemove id) true)) as [i ->].
  { destruct e as [| | | | | |i [o r| |]]; try done. destruct o; try done; cbn in Hn.
    - destruct r; [|done]. by destruct (decide _).
    - destruct r as [[]|]; [|done..]. by destruct (decide _).
    - destruct r; [|done]. destruct (decide (id0 = id)) as [->|]; [|done]. eauto. }
  exists i. split; [done|]. by eapply C64_every_removal_has_a_reason.
Qed.

(** ** C36 *)
Lemma none_prefix b b0 : bid b = bid b0 -> b_src b = DtnNone -> b_src b0 = DtnNone.
Proof.
  intros E H. unfold bid in E. rewrite H in E. destruct (b_src b0); [done|..]; exfalso; cbn in E; by injection E.
Qed.
Lemma known_seen tr m i k p : run tr m -> tasks tr !! i = Some k -> known k (did i tr) p ->
  exists b0, seen tr b0 /\ bid b0 = p_id p /\ b_src b0 = p_src p /\ bf_admin (b_flags b0) = p_admin p.
Proof.
  intros Hr Ht [Ho|(id & b & Hg & Hd)].
  - destruct (origin_ok _ _ _ _ _ (run_inv _ _ _ _ _ _ _ Hr) Ht Ho) as (_ & b & Hb & H1 & _ & _ & _ & H5 & H6).
    exists b. split; [by apply seen_born|]. done.
  - apply did_elem in Hg. destruct (iv_get _ _ (run_inv _ _ _ _ _ _ _ Hr) _ _ _ Hg) as (_ & b0 & Hb0 & Hs).
    destruct Hd as (H1 & _ & _ & _ & H5 & H6).
    exists b0. split; [by apply seen_born|]. split; [by rewrite H5, (same_primary_bid _ _ Hs)|].
    unfold same_primary in Hs. injection Hs as E1 E2 E3. split; congruence.
Qed.
(** A status report is made only if they are enabled, about a bundle that is
    neither anonymous nor (bundle ids being unique in this respect)
    administrative; it is addressed to the report-to endpoint, which was not one
    of the node's when the task last looked, just before. *)
Theorem C36_status_reports : forall t1 i b st rs r t2 m,
  run (t1 ++ EStep i (LAct (NewReport b st rs) r) :: t2) m ->
  gen_reports = true /\
  b_src b <> DtnNone /\
  ((forall b1 b2, seen t1 b1 -> seen t1 b2 -> bid b1 = bid b2 -> bf_admin (b_flags b1) = bf_admin (b_flags b2)) ->
   bf_admin (b_flags b) = false) /\
  (forall out, r = Some out -> b_dst out = b_rpt b /\ bf_admin (b_flags out) = true) /\
  exists t0 since, t1 = t0 ++ EStep i (LAct (HasEndpoint (b_rpt b)) false) :: since /\ did i since = [] /\
    forall m0, passes (t1 ++ EStep i (LAct (NewReport b st rs) r) :: t2) m t0 m0 -> ~ registered m0 (b_rpt b).
Proof.
  intros t1 i b st rs r t2 m H. destruct (run_cause _ _ _ _ _ H) as (k & Hk & Hg & h0 & p & Eh & Hpa & Hps & Hkn).
  split; [done|].
  destruct (run_access _ _ _ _ _ _ _ _ _ _ _ H) as (m1 & m2 & Hr & Ha & _).
  assert (Hget : bid b = p_id p /\ bundle_ok t1 b).
  { eapply (iv_get _ _ (run_inv _ _ _ _ _ _ _ Hr) i), did_elem. rewrite Eh. apply elem_of_app. right. left. }
  destruct Hget as (Hid & b1 & Hb1 & Hs1).
  destruct (known_seen _ _ _ _ p Hr Hk) as (b0 & Hb0 & Eid & Es & Ea).
  { rewrite Eh. by apply known_mono. }
  split. { intros E. apply Hps. rewrite <- Es. eapply (none_prefix b); [congruence|done]. }
  split.
  { intros Hu. assert (E : bf_admin (b_flags b) = bf_admin (b_flags b1)) by (unfold same_primary in Hs1; injection Hs1; congruence).
    rewrite E, (Hu b1 b0); [congruence|by apply seen_born|done|rewrite <- (same_primary_bid _ _ Hs1); congruence]. }
  split.
  { intros out ->. cbn in Ha. destruct Ha as (_ & Ha). unfold is_report_for in Ha. destruct Ha as (-> & -> & _). done. }
  change [LAct (SGet (p_id p)) (Some b); LAct (HasEndpoint (b_rpt b)) false] with ([LAct (SGet (p_id p)) (Some b)] ++ [LAct (HasEndpoint (b_rpt b)) false]) in Eh.
  rewrite app_assoc in Eh. apply did_split in Eh as (t0 & since & -> & Ed1 & Ed2).
  exists t0, since. split; [done|]. split; [done|]. intros m0 Hm0. rewrite <- app_assoc in H, Hm0. cbn in H, Hm0.
  rewrite <- (run_looked _ _ _ _ _ _ H m0 Hm0). done.
Qed.

(** ** C37 *)
(** A submission whose source is not anonymous goes on - delivers, transmits,
    starts a transmission, tells the routing agent - only after it found an
    application registered for the source. *)
Definition processes (l : label) : Prop :=
  match l with
  | LAct (Deliver _ _) _ | LAct (Transfer _ _) _ | LAct (Notify _) _ | LAct (Route _) _ | LSpawn _ => True
  | _ => False
  end.
Lemma run_front t1 i b l t2 m : run (t1 ++ EStep i l :: t2) m -> received t1 i b \/ submitted t1 i b -> front l.
Proof.
  intros H Hi. destruct (run_task_step _ _ _ _ _ _ _ _ _ _ H) as (k & q & _ & Hk & Hp).
  assert (He : emits front (task_of k)).
  { destruct Hi as [E|E]; unfold received, submitted in E; rewrite Hk in E; injection E as ->; cbn [Pipeline.task_of];
      apply emits_bind; [apply receive_front|done|apply submit_front|done]. }
  destruct (emits_trace _ _ _ _ Hp He) as [Hf _]. apply Forall_app in Hf as [_ Hf]. by apply Forall_inv in Hf.
Qed.
Theorem C37_not_processed : forall t1 i b l t2 m, run (t1 ++ EStep i l :: t2) m ->
  submitted t1 i b -> b_src b <> DtnNone -> processes l ->
  exists t0 since, t1 = t0 ++ EStep i (LAct (HasEndpoint (b_src b)) true) :: since /\
    forall m0, passes (t1 ++ EStep i l :: t2) m t0 m0 -> registered m0 (b_src b).
Proof.
  intros t1 i b l t2 m H Hi Hs Hl. assert (Hf := run_front _ _ _ _ _ _ H (or_intror Hi)).
  destruct (run_cause _ _ _ _ _ H) as (k & Hk & Hc). unfold submitted in Hi. rewrite Hk in Hi. injection Hi as ->.
  assert (Ha : allowed (KSubmit b) (did i t1)).
  { destruct l as [[] r| |]; try done; cbn [I_cause] in Hc; [apply Hc|destruct n; try done; apply Hc|apply Hc]. }
  destruct Ha as [?|Ha]; [done|]. apply did_elem, elem_of_list_split in Ha as (t0 & since & ->).
  exists t0, since. split; [done|]. intros m0 Hm0. rewrite <- app_assoc in H, Hm0. cbn in H, Hm0. by apply (run_looked _ _ _ _ _ _ H m0 Hm0).
Qed.
(** In the end the bundle was removed, or had been removed by somebody else, or
    the store failed - or the task died because a report about the deletion was
    asked for without saying where to. *)
Theorem C37_removed_partial : forall tr m i b, run tr m -> submitted tr i b -> b_src b <> DtnNone -> finished m i ->
  ~ does tr i (HasEndpoint (b_src b)) true ->
  (exists r, does tr i (SRemove (bid b)) r) \/ does tr i (SGet (bid b)) None \/
  (exists p, does tr i (SUpdate p) false) \/ (exists b', does tr i (SPush b') false) \/
  (gen_reports = true /\ exists b' st rs, does tr i (NewReport b' st rs) None /\ b_rpt b' = DtnNone).
Proof.
  intros tr m i b Hr Hi Hs Hf Hn.
  assert (exists p, m_tasks m !! i = Some (KSubmit b, p)) as [p Hp].
  { unfold submitted in Hi. rewrite <- (run_tasks _ _ _ _ _ _ _ Hr) in Hi. rewrite list_lookup_fmap in Hi.
    destruct (m_tasks m !! i) as [[k p]|] eqn:E; [|done]. injection Hi as ->. eauto. }
  assert (HQ : Q_post (KSubmit b) (did i tr)).
  { eapply (run_ended _ _ _ _ _ (fun _ _ _ => True) Q_post); [|done|done|].
    - intros k. apply all_post.
    - intros l q. by apply (Hf _ _ Hp). }
  destruct (HQ Hs) as [Hin|[Hset|(b' & st & rs & Hin)]].
  - destruct Hn. by apply did_does.
  - destruct Hset as [[r Hin]|[Hin|[[q Hin]|[b' Hin]]]]; apply did_does in Hin; eauto 10.
  - do 4 right. apply did_does in Hin. assert (Hin' := Hin). apply elem_of_list_split in Hin as (t1 & t2 & ->).
    destruct (run_cause _ _ _ _ _ Hr) as (k & _ & Hg & _). split; [done|]. exists b', st, rs. split; [done|].
    destruct (run_access _ _ _ _ _ _ _ _ _ _ _ Hr) as (m1 & m2 & _ & Ha & _). apply Ha.
Qed.

(** ** C38 *)
(** [eid_node_id]: the node id, that is the endpoint id without its service *)
Theorem C38_local_stays : forall t1 i b l t2 m, run (t1 ++ EStep i l :: t2) m ->
  received t1 i b \/ submitted t1 i b -> eid_node_id (b_dst b) = eid_node_id host ->
  match l with LAct (Transfer _ _) _ | LAct (Route _) _ | LSpawn _ => False | _ => True end.
Proof.
  intros t1 i b l t2 m H Hi Hd. assert (Hf := run_front _ _ _ _ _ _ H Hi).
  destruct l as [[] r|q|]; try done.
  destruct (run_cause _ _ _ _ _ H) as (k & Hk & Hc).
  assert (He : elsewhere host k /\ kbundle k = Some b).
  { destruct Hi as [E|E]; unfold received, submitted in E; rewrite Hk in E; injection E as ->; split; (apply Hc || done). }
  destruct He as [He Eb]. unfold elsewhere in He. rewrite Eb in He. unfold is_local_node_id in He.
  by apply bool_decide_eq_false in He.
Qed.

(** ** C39 *)
(** What a transmission task does to bundles, other than removing them: they
    stay, and stay marked for forwarding. *)
Theorem C39_mark_kept : forall tr m1 i l m2 id p, run tr m1 -> mstep m1 (EStep i l) m2 -> forwards tr i ->
  (forall r, l <> LAct (SRemove id) r) ->
  is_Some (mem_get id (n_store (m_node m1))) ->
  mem_meta_of id (n_store (m_node m1)) = Some p -> has_constraint p ForwardPending = true ->
  is_Some (mem_get id (n_store (m_node m2))) /\
  exists p', mem_meta_of id (n_store (m_node m2)) = Some p' /\ has_constraint p' ForwardPending = true.
Proof.
  intros tr m1 i l m2 id p H1 Hs Hi Hl Hb Hm Hp. assert (H2 : run (tr ++ [EStep i l]) m2) by (by eapply run_step).
  destruct (run_cause _ _ _ _ _ H2) as (k & Hk & Hc).
  assert (Hkf : fwd_kind k) by (destruct Hi as [E|[q E]]; rewrite Hk in E; by injection E as ->).
  destruct l as [o r|q|].
  2-3: inversion Hs; subst; eauto.
  assert (Ha : access host lifetime_exceeded (m_node m1) o r (m_node m2)).
  { inversion Hs; subst.
    repeat match goal with H : existT _ _ = existT _ _ |- _ => apply (Eqdep_dec.inj_pair2_eq_dec _ (fun x y => decide (x = y))) in H end.
    by subst. }
  unfold mem_get, mem_meta_of in *.
  destruct (access_store _ _ _ _ _ _ Ha) as [E|(id' & -> & E)]; rewrite E; [|eauto].
  destruct o; try (by eauto); cbn [store_after].
  - destruct r; [|eauto]. unfold mem_push. cbn. destruct (decide (bid b = id)) as [<-|Hne].
    + rewrite lookup_insert. split; [eauto|]. destruct Hb as [b' ->]. eauto.
    + rewrite lookup_insert_ne by done. split; [done|]. destruct (m_bundles _ !! bid b); [eauto|].
      rewrite lookup_insert_ne by done. eauto.
  - exfalso. eapply run_safe in H2; [|intros k'; apply prov]. destruct H2 as (k' & Hk' & Hpr).
    rewrite Hk in Hk'. injection Hk' as <-. cbn in Hpr. by subst.
  - destruct (decide (id0 = id)) as [->|Hne]; [by destruct (Hl r)|].
    unfold mem_remove, mem_update. destruct (m_meta _ !! id0) as [q|] eqn:Eq; [|by eauto].
    rewrite tombstone_id, (proj1 (iv_meta _ _ (run_inv _ _ _ _ _ _ _ H1) _ _ Eq)), Eq. cbn.
    destruct (m_bundles _ !! id0); cbn; rewrite ?lookup_delete_ne, ?lookup_insert_ne by done; eauto.
  - destruct r; [|eauto]. unfold mem_update. destruct (m_meta _ !! p_id p0) eqn:Eq; [|eauto]. cbn.
    split; [done|]. destruct (decide (p_id p0 = id)) as [<-|Hne].
    + rewrite lookup_insert. eexists. split; [done|]. cbn [I_cause] in Hc. by destruct k.
    + rewrite lookup_insert_ne by done. eauto.
Qed.
(** Why a transmission task removes a bundle.  (The two last cases are not in
    the claim.) *)
Definition may_drop (tr : list event) (i : nat) (id : string) : Prop :=
  tasks tr !! i = Some KJanitor /\ expired tr i id \/ over_limit tr i id \/ sent_and_asked tr i id.
Theorem C39_removals_partial : forall t1 i id r t2 m,
  run (t1 ++ EStep i (LAct (SRemove id) r) :: t2) m -> forwards t1 i ->
  may_drop t1 i id \/
  (exists p, does t1 i (Route p) (Some ([], true)) /\ p_id p = id) \/
  (exists s b l, does t1 i (Transfer s b) true /\ bf_admin (b_flags b) = true /\
     payload b ≫= parse_record = Some (StatusReport l id)).
Proof.
  intros t1 i id r t2 m H Hf. assert (Hr := C64_every_removal_has_a_reason _ _ _ _ _ _ H).
  assert (Hn : forall b0, received t1 i b0 \/ submitted t1 i b0 -> False).
  { unfold received, submitted, forwards in *. intros b0. destruct Hf as [E|[q E]]; rewrite E; by intros []. }
  unfold may_drop. destruct Hr as [E|e b E|b0 ? ? E|? ?|? ?|b E|b E|? b E|l (b & Ha & Hp & [(b0 & E & _)|[s Hs]])|? ?|p ? ?]; eauto 10.
  - exfalso. unfold forwards in Hf. rewrite E in Hf. destruct Hf as [?|[? ?]]; done.
  - exfalso. unfold forwards in Hf. rewrite E in Hf. destruct Hf as [?|[? ?]]; done.
  - by destruct (Hn b0).
  - by destruct (Hn b); left.
  - by destruct (Hn b); right.
  - by destruct (Hn b0).
  - by destruct (Hn b0).
Qed.
(** In particular a failed attempt loses nothing. *)
Theorem C39_failed_attempt_partial : forall t1 i id r t2 m,
  run (t1 ++ EStep i (LAct (SRemove id) r) :: t2) m -> forwards t1 i ->
  (forall s b, ~ does t1 i (Transfer s b) true) ->
  (tasks t1 !! i = Some KJanitor /\ expired t1 i id) \/ over_limit t1 i id \/
  exists p, does t1 i (Route p) (Some ([], true)) /\ p_id p = id.
Proof.
  intros t1 i id r t2 m H Hf Hn.
  destruct (C39_removals_partial _ _ _ _ _ _ H Hf) as [[?|[?|(p & nodes & s & b & _ & _ & _ & Ht & _)]]|[?|(s & b & l & Ht & _)]]; eauto.
  - by destruct (Hn s b).
  - by destruct (Hn s b).
Qed.

(** ** C40 *)
Lemma remove_sublist l rm l' : remove_indices l rm = Some l' -> sublist l' l /\ length l = (length l' + length rm)%nat.
Proof.
  revert l. induction rm as [|i rm IH]; intros l H; cbn [remove_indices] in H; [injection H as ->; split; [done|cbn; lia]|].
  destruct (i <? length l)%nat eqn:E; [|done]. apply Nat.ltb_lt in E. destruct (IH _ H) as [H1 H2].
  split; [etrans; [exact H1|apply sublist_delete]|]. rewrite delete_take_drop, app_length, take_length, drop_length in H2. cbn [length]. lia.
Qed.
Definition flagged (x : block) : Prop := 11 <= k_type x /\ kf_remove (k_flags x) = true.
Global Instance flagged_dec x : Decision (flagged x).
Proof. unfold flagged. apply _. Defined.
Lemma marks_length l i rm : length (marks l i rm) = (length rm + length (filter flagged l))%nat.
Proof.
  revert i rm. induction l as [|x l IH]; intros i rm; cbn [marks]; [rewrite filter_nil; cbn; lia|]. rewrite filter_cons.
  destruct (k_type x <? 11) eqn:E.
  - rewrite decide_False by (unfold flagged; lia). apply IH.
  - rewrite IH. destruct (kf_remove (k_flags x)) eqn:Er.
    + rewrite decide_True by (unfold flagged; split; [lia|done]). rewrite app_length. cbn. lia.
    + rewrite decide_False by (unfold flagged; rewrite Er; by intros []). lia.
Qed.
Lemma marks_none l i rm : Forall (fun x => ~ flagged x) l -> marks l i rm = rm.
Proof.
  intros H. revert i rm. induction H as [|x l Hx _ IH]; intros i rm; cbn [marks]; [done|].
  destruct (k_type x <? 11) eqn:E; [apply IH|]. rewrite IH. unfold flagged in Hx.
  destruct (kf_remove (k_flags x)); [|done]. destruct Hx. split; [lia|done].
Qed.
Lemma marks_prefix u w i rm : Forall (fun x => 11 <= k_type x /\ ~ flagged x) u ->
  marks (u ++ w) i rm = marks w (length u + i) rm.
Proof.
  intros H. revert i. induction H as [|x u [Hx Hn] _ IH]; intros i; cbn [marks app]; [done|].
  replace (k_type x <? 11) with false by (symmetry; apply N.ltb_ge; lia). unfold flagged in Hn.
  destruct (kf_remove (k_flags x)); [by destruct Hn|]. rewrite IH. f_equal. cbn. lia.
Qed.
Lemma kept_none l : Forall (fun x => ~ flagged x) l -> kept_blocks l = l.
Proof.
  intros H. unfold kept_blocks. induction H as [|x l Hx _ IH]; [done|]. rewrite filter_cons, decide_True by exact Hx. by rewrite IH.
Qed.
(** What a reception puts into the store in the place of the bundle: a copy with
    as many blocks less as were flagged, the others unchanged and in order; they
    are the right ones if no block was flagged, or if only one was and no known
    block comes before it. *)
Theorem C40_blocks_partial : forall t1 i b b' r t2 m,
  run (t1 ++ EStep i (LAct (SPush b') r) :: t2) m -> received t1 i b ->
  (exists b0 st rs, does t1 i (NewReport b0 st rs) (Some b')) \/
  primary b' = primary b /\ ~ must_delete b /\
  sublist (b_blocks b') (b_blocks b) /\
  length (b_blocks b) = (length (b_blocks b') + length (filter flagged (b_blocks b)))%nat /\
  ((filter flagged (b_blocks b) = [] \/
    exists u x w, b_blocks b = u ++ x :: w /\ Forall (fun y => 11 <= k_type y) u /\ filter flagged (b_blocks b) = [x]) ->
   b_blocks b' = kept_blocks (b_blocks b)).
Proof.
  intros t1 i b b' r t2 m H Hi. destruct (run_cause _ _ _ _ _ H) as (k & Hk & Hc).
  unfold received in Hi. rewrite Hk in Hi. injection Hi as ->. cbn [I_cause] in Hc.
  destruct Hc as [(b0 & st & rs & Hc)|(Hnf & _ & l & -> & Hl)].
  { left. exists b0, st, rs. by apply did_does. }
  right. split; [done|]. split; [done|]. cbn [b_blocks with_blocks].
  destruct (remove_sublist _ _ _ Hl) as [Hs Hlen]. split; [done|].
  rewrite (marks_length (b_blocks b) 0 [] : length _ = _) in Hlen. split; [done|].
  assert (Hfn : forall l, filter flagged l = [] -> Forall (fun x => ~ flagged x) l).
  { intros l0 H0. apply Forall_forall. intros x Hx Hf. assert (E : x ∈ filter flagged l0) by (by apply elem_of_list_filter).
    rewrite H0 in E. by apply elem_of_nil in E. }
  intros [H0|(u & x & w & E & Hu & H1)].
  - apply Hfn in H0. rewrite (marks_none _ _ _ H0) in Hl. injection Hl as <-. by rewrite kept_none.
  - rewrite E in *. rewrite filter_app, filter_cons in H1.
    assert (Hx : flagged x).
    { assert (E' : x ∈ [x]) by left. rewrite <- H1 in E'.
      destruct (decide (flagged x)); [done|]. apply elem_of_app in E' as [E'|E']; apply elem_of_list_filter in E' as [Hq _]; exact Hq. }
    rewrite decide_True in H1 by done.
    assert (filter flagged u = []) as Hu0.
    { destruct (filter flagged u) as [|y l0]; [done|]. apply (f_equal length) in H1. cbn in H1. rewrite app_length in H1. cbn in H1. lia. }
    rewrite Hu0 in H1. injection H1 as Hw0. apply Hfn in Hu0, Hw0.
    rewrite marks_prefix in Hl.
    2: { apply Forall_and. done. }
    cbn [marks] in Hl. destruct Hx as [Ht Hr]. replace (k_type x <? 11) with false in Hl by (symmetry; apply N.ltb_ge; lia).
    rewrite Hr, marks_none in Hl by done. cbn [remove_indices app] in Hl.
    rewrite Nat.add_0_r in Hl. destruct (_ <? _)%nat; [|done]. injection Hl as <-.
    rewrite delete_middle. unfold kept_blocks. rewrite filter_app, filter_cons, decide_False by tauto.
    f_equal; symmetry; by apply kept_none.
Qed.
(** A bundle with a block that demands its deletion is not processed: not
    announced, delivered or transmitted, and its copy is not replaced ... *)
Theorem C40_not_processed : forall t1 i b l t2 m, run (t1 ++ EStep i l :: t2) m ->
  received t1 i b -> must_delete b ->
  ~ processes l /\
  forall b' r, l = LAct (SPush b') r -> exists b0 st rs, does t1 i (NewReport b0 st rs) (Some b').
Proof.
  intros t1 i b l t2 m H Hi Hd. assert (Hf := run_front _ _ _ _ _ _ H (or_introl Hi)).
  destruct (run_cause _ _ _ _ _ H) as (k & Hk & Hc). unfold received in Hi. rewrite Hk in Hi. injection Hi as ->. split.
  - intros Hl. assert (Ha : allowed (KReceive b) (did i t1)).
    { destruct l as [[] r| |]; try done; cbn [I_cause] in Hc; [apply Hc|destruct n; try done; apply Hc|apply Hc]. }
    by destruct Ha as [? _].
  - intros b' r ->. cbn [I_cause] in Hc. destruct Hc as [(b0 & st & rs & Hc)|(? & _)]; [|done].
    exists b0, st, rs. by apply did_does.
Qed.
(** ... but removed, unless the store fails or the task dies as in C37. *)
Theorem C40_removed_partial : forall tr m i b, run tr m -> received tr i b -> must_delete b -> finished m i ->
  does tr i (SAdd b) (Some true) ->
  (exists r, does tr i (SRemove (bid b)) r) \/ does tr i (SGet (bid b)) None \/
  (exists p, does tr i (SUpdate p) false) \/ (exists b', does tr i (SPush b') false) \/
  (gen_reports = true /\ exists b' st rs, does tr i (NewReport b' st rs) None /\ b_rpt b' = DtnNone).
Proof.
  intros tr m i b Hr Hi Hd Hf Hn.
  assert (exists p, m_tasks m !! i = Some (KReceive b, p)) as [p Hp].
  { unfold received in Hi. rewrite <- (run_tasks _ _ _ _ _ _ _ Hr) in Hi. rewrite list_lookup_fmap in Hi.
    destruct (m_tasks m !! i) as [[k p]|] eqn:E; [|done]. injection Hi as ->. eauto. }
  assert (HQ : Q_post (KReceive b) (did i tr)).
  { eapply (run_ended _ _ _ _ _ (fun _ _ _ => True) Q_post); [|done|done|].
    - intros k. apply all_post.
    - intros l q. by apply (Hf _ _ Hp). }
  destruct (HQ Hd) as [Hset|(b' & st & rs & Hin)]; [by apply did_does|..].
  - destruct Hset as [[r Hin]|[Hin|[[q Hin]|[b' Hin]]]]; apply did_does in Hin; eauto 10.
  - do 4 right. apply did_does in Hin. assert (Hin' := Hin). apply elem_of_list_split in Hin as (t1 & t2 & ->).
    destruct (run_cause _ _ _ _ _ Hr) as (k & _ & Hg & _). split; [done|]. exists b', st, rs. split; [done|].
    destruct (run_access _ _ _ _ _ _ _ _ _ _ _ Hr) as (m1 & m2 & _ & Ha & _). apply Ha.
Qed.

(** ** C41 *)
(** The reception (or submission) of a bundle removes another bundle from the
    store only if it is a status report about that one, with four entries. *)
Theorem C41_reports_partial : forall t1 i b id r t2 m,
  run (t1 ++ EStep i (LAct (SRemove id) r) :: t2) m -> received t1 i b \/ submitted t1 i b -> id <> bid b ->
  exists b' l, does t1 i (SGet (bid b)) (Some b') /\ bf_admin (b_flags b') = true /\
    payload b' ≫= parse_record = Some (StatusReport l id) /\ length l = 4%nat /\ does t1 i (SHas id) true.
Proof.
  intros t1 i b id r t2 m H Hi Hne. assert (Hr := C64_every_removal_has_a_reason _ _ _ _ _ _ H).
  assert (Hn : forall b0, received t1 i b0 \/ submitted t1 i b0 -> b0 = b).
  { unfold received, submitted in *. intros b0 H0. destruct Hi as [E|E]; rewrite E in H0; destruct H0 as [H0|H0]; by injection H0. }
  assert (Hnf : forwards t1 i -> False).
  { unfold received, submitted, forwards in *. destruct Hi as [E|E]; rewrite E; by intros [?|[? ?]]. }
  assert (exists m1, run t1 m1) as [m1 Hr1] by (eapply run_app_inv; done).
  destruct Hr as [E|e b' E|b0 e b' E Hin Hb|E|E|b0 E Hb|b0 E Hb|b0 b' E Hb|l (b' & Ha & Hp & [(b0 & E & Hg)|[s Hs]]) Hlen Hh|E|p E]; try (by destruct Hnf).
  - exfalso. unfold received, submitted in Hi. rewrite E in Hi. by destruct Hi.
  - exfalso. unfold received, submitted in Hi. rewrite E in Hi. by destruct Hi.
  - exfalso. apply Hn in E. subst b0. apply elem_of_list_split in Hin as (ta & tb & ->).
    destruct (C63_delivered_where _ _ _ _ _ _ _ _ _ _ _ _ Hr1) as (b1 & E1 & _ & E2).
    assert (b1 = b); [|congruence]. apply Hn. unfold received, submitted. rewrite tasks_app.
    destruct E2 as [E2|[E2 _]]; [right|left]; by apply lookup_app_l_Some.
  - exfalso. unfold received, submitted in Hi. rewrite E in Hi. by destruct Hi.
  - exfalso. apply Hne. rewrite <- Hb. f_equal. by apply Hn; left.
  - exfalso. apply Hne. rewrite <- Hb. f_equal. by apply Hn; right.
  - exfalso. apply Hne. rewrite <- Hb. f_equal. by apply Hn.
  - apply Hn in E. subst b0. exists b', l. done.
  - exfalso. apply elem_of_list_split in Hs as (ta & tb & ->).
    assert (Hi' : received ta i b \/ submitted ta i b).
    { destruct (run_cause _ _ _ _ _ Hr1) as (k & Hk & _). unfold received, submitted in *. rewrite tasks_app in Hi.
      rewrite !(lookup_app_l_Some _ _ _ _ Hk) in Hi. by rewrite Hk. }
    by apply (run_front _ _ _ _ _ _ Hr1 Hi').
Qed.

(** ** C65 *)
(** A bundle that is addressed to this node (whenever it was received or
    submitted) and is not a status report the node made is never handed to a
    convergence layer, by any task. *)
Theorem C65_not_transmitted : forall t1 i s b r t2 m,
  run (t1 ++ EStep i (LAct (Transfer s b) r) :: t2) m ->
  (forall b', EStart (KReceive b') ∈ t1 \/ EStart (KSubmit b') ∈ t1 -> bid b' = bid b ->
     eid_node_id (b_dst b') = eid_node_id host) ->
  exists j b0 st rs out, does t1 j (NewReport b0 st rs) (Some out) /\ bid out = bid b.
Proof.
  intros t1 i s b r t2 m H HL.
  assert (Hd : (exists j b0 st rs out, does t1 j (NewReport b0 st rs) (Some out) /\ bid out = bid b) \/
               (forall j b0 st rs out, does t1 j (NewReport b0 st rs) (Some out) -> bid out <> bid b)).
  { unfold does. clear. induction t1 as [|e t1 IH]; [right; by intros ? ? ? ? ? ?%elem_of_nil|].
    destruct IH as [(j & b0 & st & rs & out & Hin & E)|IH]; [left; exists j, b0, st, rs, out; split; [by right|done]|].
    assert (He : (exists j b0 st rs out, e = EStep j (LAct (NewReport b0 st rs) (Some out)) /\ bid out = bid b) \/
                 (forall j b0 st rs out, e = EStep j (LAct (NewReport b0 st rs) (Some out)) -> bid out <> bid b)).
    { pose (made := fun e => match e with EStep _ (LAct (NewReport _ _ _) (Some o)) => Some o | _ => None end).
      destruct (made e) as [out|] eqn:Em.
      - destruct (decide (bid out = bid b)) as [E|E].
        + left. destruct e as [| | | | | |j [[] r0| |]]; try done. destruct r0; [|done]. injection Em as ->. eauto 10.
        + right. intros j b0 st rs out' ->. injection Em as ->. done.
      - right. intros j b0 st rs out' ->. done. }
    destruct He as [(j & b0 & st & rs & out & -> & E)|He]; [left; exists j, b0, st, rs, out; split; [by left|done]|].
    right. intros j b0 st rs out [E|Hin]%elem_of_cons; eauto. }
  destruct Hd as [Hd|Hd]; [done|]. exfalso.
  eapply (local_never_sent host gen_reports parallel parse_record lifetime_exceeded); [exact H|].
  split; [|intros j b0 st rs out Hin; by eapply Hd].
  intros b' Hb' E. apply bool_decide_eq_true. by apply HL.
Qed.
End props.

(** ** The internal routing agents never ask for a bundle to be removed without
    naming a next hop (so the second exception of [C39_removals_partial] can
    only come from an external router). *)
Theorem C39_agents_name_a_hop :
  (forall h c h' a, e_step h c = Some (h', Some a) -> a <> ([], true)) /\
  (forall u c u' a, f_step u c = Some (u', Some a) -> a <> ([], true)) /\
  (forall u c u' a, sink_step u c = Some (u', Some a) -> a <> ([], true)) /\
  (forall cf h c h' a, saw_step cf h c = Some (h', Some a) -> a <> ([], true)) /\
  (forall glob rs c rs' a, st_step glob rs c = Some (rs', Some a) -> a <> ([], true)).
Proof.
  split; [|split; [|split; [|split]]].
  - intros h [p ps clas|[]|] h' a; cbn [e_step]; try done.
    destruct (e_query clas p h ps []) as [[h1 a1]|] eqn:E; [|done]. intros [= <- <-].
    cut (forall acc h, e_query clas p h ps acc = Some (h1, a1) -> a1 <> ([], true)); [intros Hc; exact (Hc _ _ E)|]. clear h E.
    induction ps as [|q ps IH]; intros acc h; cbn [e_query]; [intros [= <- <-]; by intros [=]|].
    destruct (e_contains _ _ _); [apply IH|]. destruct (first_cla clas q); [|apply IH]. destruct (eid_node _); [|done].
    destruct (bool_decide _); [intros [= <- <-]; by intros [=]|apply IH].
  - intros u [] u' a; cbn; try done. intros [= _ <-]; by intros [=].
  - intros u [] u' a; cbn; try done. intros [= _ <-]; by intros [=].
  - intros cf h [p ps clas|n|] h' a; cbn [saw_step]; try done.
    destruct (h !! p_id p) as [d|]; [|intros [= _ <-]; by intros [=]].
    destruct (saw_query cf clas p d ps [] false) as [[d1 a1]|] eqn:E; [|done]. intros [= _ <-].
    cut (forall acc del d, (del = true -> acc <> []) -> saw_query cf clas p d ps acc del = Some (d1, a1) -> a1 <> ([], true)); [intros Hc; eapply (Hc [] false); [intros [=]|exact E]|].
    clear d E.
    induction ps as [|q ps IH]; intros acc del d H; cbn [saw_query]; [intros [= <- <-] [= -> ->]; by apply H|].
    destruct (eid_node_id _); [|done]. destruct (_ || _); [by apply IH|]. destruct (_ <? _).
    + destruct (eid_node _); [|done]. destruct (bool_decide _); [|by apply IH]. destruct (first_cla _ _); by apply IH.
    + destruct (first_cla _ _); apply IH; [|done]. intros _. by destruct acc.
  - intros glob rs [p ps clas|n|cmd f] rs' a; cbn [st_step]; try done.
    + intros [= _ <-]. induction rs as [|r rs IH]; cbn [st_query]; [done|].
      destruct (route_matches _ _ _); [|exact IH]. by destruct (first_some _ _).
    + destruct (bool_decide _); [|done]. destruct f as [f|]; [|done]. by destruct (load_routes f).
Qed.

(** ** Full statements that fail, and cases *)
Definition C37_full : Prop :=
  forall host gen_reports parallel parse_record lifetime_exceeded tr m i b,
    run host gen_reports parallel parse_record lifetime_exceeded tr m ->
    submitted tr i b -> b_src b <> DtnNone -> finished m i ->
    ~ does tr i (HasEndpoint (b_src b)) true ->
    (forall p, ~ does tr i (SUpdate p) false) -> (forall b', ~ does tr i (SPush b') false) ->
    (exists r, does tr i (SRemove (bid b)) r) \/ does tr i (SGet (bid b)) None.
Definition C39_full : Prop :=
  forall host gen_reports parallel parse_record lifetime_exceeded t1 i id r t2 m,
    run host gen_reports parallel parse_record lifetime_exceeded (t1 ++ EStep i (LAct (SRemove id) r) :: t2) m ->
    forwards t1 i -> may_drop t1 i id.
Definition C40_full : Prop :=
  forall host gen_reports parallel parse_record lifetime_exceeded t1 i b b' r t2 m,
    run host gen_reports parallel parse_record lifetime_exceeded (t1 ++ EStep i (LAct (SPush b') r) :: t2) m ->
    received t1 i b -> bid b' = bid b -> b_blocks b' = kept_blocks (b_blocks b).
Definition C41_full : Prop :=
  forall host gen_reports parallel parse_record lifetime_exceeded t1 i b id r t2 m,
    run host gen_reports parallel parse_record lifetime_exceeded (t1 ++ EStep i (LAct (SRemove id) r) :: t2) m ->
    received t1 i b -> id <> bid b ->
    exists b' l, does t1 i (SGet (bid b)) (Some b') /\
      payload b' ≫= parse_record = Some (StatusReport l id) /\ l !! DELIVERED_BUNDLE = Some true.
Definition C65_full : Prop :=
  forall host gen_reports parallel parse_record lifetime_exceeded t1 i s b r t2 m,
    run host gen_reports parallel parse_record lifetime_exceeded (t1 ++ EStep i (LAct (Transfer s b) r) :: t2) m ->
    eid_node_id (b_dst b) <> eid_node_id host.

Lemma never_ev (f : event -> bool) tr e : forallb (fun e => negb (f e)) tr = true -> e ∈ tr -> f e = false.
Proof. intros H He. eapply forallb_forall in H; [|by apply elem_of_list_In]. by apply negb_true_iff. Qed.
Definition node1 := Dtn "n1" "".
Definition hop2 := Sender 0 "10.0.0.2:16162" "mtcp" (Dtn "n2" "").
Definition asks (r f d x : bool) := BFlags false false r f d x false.
Definition fate (route : option answer) (ok : bool) : oracle := Oracle (fun _ => route) (fun _ => ok) true 7 [1].
Definition go (gen : bool) (parse : list N -> option arecord) (o : oracle) := script node1 gen false parse (fun _ _ => false) o.
Lemma go_ok gen parse o l eps u d : run node1 gen false parse (fun _ _ => false)
  (fst (go gen parse o l (start_node eps u d))) (snd (go gen parse o l (start_node eps u d))).
Proof. apply script_run, start_initial. Qed.

(** C37: the source n9/x is not registered; a report about the deletion is
    wanted, but no endpoint is given to send it to *)
Definition refused := Bundle (asks false false false true) (Dtn "n2" "in") (Dtn "n9" "x") DtnNone 1000 0 5000 0 0
  [Block 1 1 no_kflags (CData [1])].
Definition run37 := go true (fun _ => None) (fate None true) [DoStart (KSubmit refused); DoRun 0] (start_node [] 2000000 1000000).
Theorem C37_full_refuted : ~ C37_full.
Proof.
  intros H. specialize (H node1 true false (fun _ => None) (fun _ _ => false) (fst run37) (snd run37) 0%nat refused).
  destruct H as [[r H]|H].
  - apply go_ok.
  - done.
  - done.
  - intros k p E. vm_compute in E. injection E as <- <-. intros l q Hs. inversion Hs.
  - intros Hd. by apply (never_ev (fun e => match e with EStep _ (LAct (HasEndpoint _) true) => true | _ => false end)) in Hd; [|vm_compute].
  - intros p Hd. by apply (never_ev (fun e => match e with EStep _ (LAct (SUpdate _) false) => true | _ => false end)) in Hd; [|vm_compute].
  - intros p Hd. by apply (never_ev (fun e => match e with EStep _ (LAct (SPush _) false) => true | _ => false end)) in Hd; [|vm_compute].
  - by apply (never_ev (fun e => match e with EStep _ (LAct (SRemove _) _) => true | _ => false end)) in H; [|vm_compute].
  - by apply (never_ev (fun e => match e with EStep _ (LAct (SGet _) None) => true | _ => false end)) in H; [|vm_compute].
Qed.
(** the same with a place to send the report to: removed, and C36 applies to the
    report *)
Definition refused' := Bundle (asks false false false true) (Dtn "n2" "in") (Dtn "n9" "x") (Dtn "n9" "rep") 1000 0 5000 0 0
  [Block 1 1 no_kflags (CData [1])].
Definition run37' := go true (fun _ => None) (fate None true) [DoStart (KSubmit refused'); DoRun 0] (start_node [] 2000000 1000000).
Example C37_case : submitted (fst run37') 0 refused' /\ b_src refused' <> DtnNone /\
  mem_get (bid refused') (n_store (m_node (snd run37'))) = None /\
  find_ev (fun e => match e with EStep _ (LAct (NewReport _ _ _) _) => true | _ => false end) (fst run37') =
    Some (EStep 0 (LAct (NewReport refused' DELETED_BUNDLE NO_INFORMATION)
      (Some (Bundle report_flags (Dtn "n9" "rep") node1 node1 1000000 7 3600000 0 0 [Block 1 1 no_kflags (CData [1])])))).
Proof. vm_compute. done. Qed.
(** registered: accepted *)
Definition run37r := go true (fun _ => None) (fate None true) [DoStart (KSubmit refused'); DoRun 0] (start_node [Dtn "n9" "x"] 2000000 1000000).
Example C37_case_registered : submitted (fst run37r) 0 refused' /\
  existsb (fun e => match e with EStep _ (LSpawn _) => true | _ => false end) (fst run37r) = true /\
  is_Some (mem_get (bid refused') (n_store (m_node (snd run37r)))).
Proof. split; [done|]. split; [by vm_compute|]. vm_compute. eauto. Qed.

(** C39: the routing agent names no next hop and asks for the removal *)
Definition transit := Bundle (asks false false false false) (Dtn "n8" "in") (Dtn "n9" "x") DtnNone 1000 0 5000 0 0
  [Block 1 1 no_kflags (CData [1])].
Definition run39 := go false (fun _ => None) (fate (Some ([], true)) true) [DoStart (KReceive transit); DoRun 0; DoRun 1] (start_node [] 2000000 1000000).
Theorem C39_full_refuted : ~ C39_full.
Proof.
  intros H.
  destruct (find_ev_split (fun e => match e with EStep _ (LAct (SRemove _) _) => true | _ => false end) (fst run39)
    (EStep 1 (LAct (SRemove (bid transit)) true))) as (t1 & t2 & E); [by vm_compute|].
  assert (Hr := go_ok false (fun _ => None) (fate (Some ([], true)) true) [DoStart (KReceive transit); DoRun 0; DoRun 1] [] 2000000 1000000).
  change (fst (go _ _ _ _ _)) with (fst run39) in Hr. rewrite E in Hr.
  assert (Hk : exists p, tasks t1 !! 1%nat = Some (KForward p)).
  { destruct (run_task_step _ _ _ _ _ _ _ _ _ _ Hr) as (k & q & Hk & Hk1 & _).
    rewrite <- E in Hk. vm_compute in Hk. injection Hk as <-. rewrite Hk1. eauto. }
  assert (Hsub : forall e, e ∈ t1 -> e ∈ fst run39) by (intros e He; rewrite E; apply elem_of_app; by left).
  destruct (H _ _ _ _ _ _ _ _ _ _ _ Hr) as [[Hj _]|[(b & Hg & _)|(p & nodes & s & b & _ & _ & _ & Ht & _)]].
  - by right.
  - destruct Hk as [p Hk]. rewrite Hk in Hj. done.
  - apply Hsub in Hg. by apply (never_ev (fun e => match e with EStep 1 (LAct (SGet _) _) => true | _ => false end)) in Hg; [|vm_compute].
  - apply Hsub in Ht. by apply (never_ev (fun e => match e with EStep _ (LAct (Transfer _ _) _) => true | _ => false end)) in Ht; [|vm_compute].
Qed.
(** a failed attempt: the bundle is kept and stays marked *)
Definition run39f := go false (fun _ => None) (fate (Some ([hop2], true)) false) [DoStart (KReceive transit); DoRun 0; DoRun 1] (start_node [] 2000000 1000000).
Example C39_case : is_Some (mem_get (bid transit) (n_store (m_node (snd run39f)))) /\
  option_map (fun p => has_constraint p ForwardPending) (mem_meta_of (bid transit) (n_store (m_node (snd run39f)))) = Some true /\
  existsb (fun e => match e with EStep 1 (LAct (Transfer _ _) false) => true | _ => false end) (fst run39f) = true.
Proof. split; [vm_compute; eauto|]. by vm_compute. Qed.
(** a successful one, with removal asked for *)
Definition run39s := go false (fun _ => None) (fate (Some ([hop2], true)) true) [DoStart (KReceive transit); DoRun 0; DoRun 1] (start_node [] 2000000 1000000).
Example C39_case_sent : mem_get (bid transit) (n_store (m_node (snd run39s))) = None /\
  existsb (fun e => match e with EStep 1 (LAct (SRemove _) true) => true | _ => false end) (fst run39s) = true.
Proof. by vm_compute. Qed.

(** C40: the one flagged block is the second in the list; the first one goes *)
Definition drop_me := KFlags false false false true.
Definition odd_bundle := Bundle (asks false false false false) (Dtn "n8" "in") (Dtn "n9" "x") DtnNone 1000 0 5000 0 0
  [Block 6 3 no_kflags (CPrev (Dtn "n2" "")); Block 192 2 drop_me (CData [9]); Block 1 1 no_kflags (CData [1])].
Definition run40 := go false (fun _ => None) (fate None true) [DoStart (KReceive odd_bundle); DoRun 0] (start_node [] 2000000 1000000).
Theorem C40_full_refuted : ~ C40_full.
Proof.
  intros H.
  destruct (find_ev_split (fun e => match e with EStep _ (LAct (SPush _) _) => true | _ => false end) (fst run40)
    (EStep 0 (LAct (SPush (with_blocks odd_bundle [Block 192 2 drop_me (CData [9]); Block 1 1 no_kflags (CData [1])])) true))) as (t1 & t2 & E); [by vm_compute|].
  assert (Hr := go_ok false (fun _ => None) (fate None true) [DoStart (KReceive odd_bundle); DoRun 0] [] 2000000 1000000).
  change (fst (go _ _ _ _ _)) with (fst run40) in Hr. rewrite E in Hr.
  specialize (H _ _ _ _ _ _ _ odd_bundle _ _ _ _ Hr). assert (Hk : received t1 0 odd_bundle).
  { destruct (run_task_step _ _ _ _ _ _ _ _ _ _ Hr) as (k & q & Hk & Hk1 & _).
    rewrite <- E in Hk. vm_compute in Hk. injection Hk as <-. exact Hk1. }
  specialize (H Hk eq_refl). vm_compute in H. discriminate.
Qed.
(** the flagged block in front: the right one goes *)
Definition even_bundle := Bundle (asks false false false false) (Dtn "n8" "in") (Dtn "n9" "x") DtnNone 1000 0 5000 0 0
  [Block 193 4 no_kflags (CData [8]); Block 192 2 drop_me (CData [9]); Block 6 3 no_kflags (CPrev (Dtn "n2" "")); Block 1 1 no_kflags (CData [1])].
Definition run40e := go false (fun _ => None) (fate None true) [DoStart (KReceive even_bundle); DoRun 0] (start_node [] 2000000 1000000).
Example C40_case : b_blocks <$> mem_get (bid even_bundle) (n_store (m_node (snd run40e))) = Some (kept_blocks (b_blocks even_bundle)) /\
  filter flagged (b_blocks even_bundle) = [Block 192 2 drop_me (CData [9])].
Proof. by vm_compute. Qed.
(** a block that demands deletion *)
Definition doomed := Bundle (asks false false false false) (Dtn "n8" "in") (Dtn "n9" "x") DtnNone 1000 0 5000 0 0
  [Block 192 2 (KFlags false false true false) (CData [9]); Block 1 1 no_kflags (CData [1])].
Definition run40d := go false (fun _ => None) (fate None true) [DoStart (KReceive doomed); DoRun 0] (start_node [] 2000000 1000000).
Example C40_case_delete : must_delete doomed /\ mem_get (bid doomed) (n_store (m_node (snd run40d))) = None /\
  existsb (fun e => match e with EStep 0 (LAct (SAdd _) (Some true)) => true | _ => false end) (fst run40d) = true.
Proof. split; [|by vm_compute]. exists (Block 192 2 (KFlags false false true false) (CData [9])). split; [left|]. done. Qed.

(** C41: the report says "received", nothing else; the bundle goes *)
Definition kept_here := transit.
Definition report := Bundle report_flags (Dtn "n1" "in") (Dtn "n8" "") (Dtn "n8" "") 2000 0 5000 0 0 [Block 1 1 no_kflags (CData [5])].
Definition parse41 (asserted : list bool) (d : list N) : option arecord :=
  match d with [5] => Some (StatusReport asserted (bid kept_here)) | _ => None end.
Definition run41 := go false (parse41 [true; false; false; false]) (fate None true)
  [DoStart (KReceive kept_here); DoRun 0; DoStart (KReceive report); DoRun 2] (start_node [Dtn "n1" "in"] 2000000 1000000).
Theorem C41_full_refuted : ~ C41_full.
Proof.
  intros H.
  destruct (find_ev_split (fun e => match e with EStep _ (LAct (SRemove _) _) => true | _ => false end) (fst run41)
    (EStep 2 (LAct (SRemove (bid kept_here)) true))) as (t1 & t2 & E); [by vm_compute|].
  assert (Hr := go_ok false (parse41 [true; false; false; false]) (fate None true)
    [DoStart (KReceive kept_here); DoRun 0; DoStart (KReceive report); DoRun 2] [Dtn "n1" "in"] 2000000 1000000).
  change (fst (go _ _ _ _ _)) with (fst run41) in Hr. rewrite E in Hr.
  assert (Hk : received t1 2 report).
  { destruct (run_task_step _ _ _ _ _ _ _ _ _ _ Hr) as (k & q & Hk & Hk1 & _).
    rewrite <- E in Hk. vm_compute in Hk. injection Hk as <-. exact Hk1. }
  destruct (H _ _ _ _ _ _ _ report _ _ _ _ Hr Hk) as (b' & l & _ & Hp & Hl); [done|].
  destruct (payload b') as [d|]; [|done]. cbn in Hp.
  assert (l = [true; false; false; false]) as ->; [|done].
  unfold parse41 in Hp. repeat (case_match; try done). by injection Hp.
Qed.
(** with delivery asserted; C41_reports_partial applies to both *)
Definition run41d := go false (parse41 [true; false; true; false]) (fate None true)
  [DoStart (KReceive kept_here); DoRun 0; DoStart (KReceive report); DoRun 2] (start_node [Dtn "n1" "in"] 2000000 1000000).
Example C41_case : received (fst run41d) 2 report /\ bid kept_here <> bid report /\
  find_ev (fun e => match e with EStep _ (LAct (SRemove _) _) => true | _ => false end) (fst run41d) =
    Some (EStep 2 (LAct (SRemove (bid kept_here)) true)).
Proof. by vm_compute. Qed.

(** C65: a bundle for this node asks for a report to an endpoint of this node
    nobody is registered for; the report is handed to a convergence layer *)
Definition asking := Bundle (asks true false false false) (Dtn "n1" "in") (Dtn "n9" "x") (Dtn "n1" "gone") 1000 0 5000 0 0
  [Block 1 1 no_kflags (CData [1])].
Definition run65 := go true (fun _ => None) (fate (Some ([hop2], false)) true)
  [DoStart (KReceive asking); DoRun 0; DoStart KJanitor; DoRun 1] (start_node [Dtn "n1" "in"] 2000000 1000000).
Definition own := Bundle report_flags (Dtn "n1" "gone") node1 node1 1000000 7 3600000 0 0
  [Block 6 2 no_kflags (CPrev node1); Block 1 1 no_kflags (CData [1])].
Theorem C65_full_refuted : ~ C65_full.
Proof.
  intros H. destruct (find_ev_split is_transfer (fst run65) (EStep 1 (LAct (Transfer hop2 own) true))) as (t1 & t2 & E); [by vm_compute|].
  assert (Hr := go_ok true (fun _ => None) (fate (Some ([hop2], false)) true)
    [DoStart (KReceive asking); DoRun 0; DoStart KJanitor; DoRun 1] [Dtn "n1" "in"] 2000000 1000000).
  change (fst (go _ _ _ _ _)) with (fst run65) in Hr. rewrite E in Hr.
  by apply H in Hr.
Qed.
(** C38, C65: the bundle itself was delivered, not transmitted *)
Example C38_case : received (fst run65) 0 asking /\ eid_node_id (b_dst asking) = eid_node_id node1 /\
  number (handed_over_id (bid asking)) (fst run65) = 1%nat /\
  existsb (fun e => match e with EStep _ (LAct (Transfer _ b) _) => bool_decide (bid b = bid asking) | _ => false end) (fst run65) = false.
Proof. by vm_compute. Qed.
(** C64: expiry *)
Definition run64 := go false (fun _ => None) (fate None true)
  [DoStart (KReceive transit); DoRun 0; DoEnv (ETime 3000000 2000000); DoStart KJanitor; DoRun 2] (start_node [] 2000000 1000).
Example C64_case : mem_get (bid transit) (n_store (m_node (snd run64))) = None /\
  find_ev (fun e => match e with EStep _ (LAct (SRemove _) _) => true | _ => false end) (fst run64) =
    Some (EStep 2 (LAct (SRemove (bid transit)) true)).
Proof. by vm_compute. Qed.

Print Assumptions C64_every_removal_has_a_reason.
Print Assumptions C64_only_removals_remove.
Print Assumptions C36_status_reports.
Print Assumptions C37_not_processed.
Print Assumptions C37_removed_partial.
Print Assumptions C37_full_refuted.
Print Assumptions C38_local_stays.
Print Assumptions C39_mark_kept.
Print Assumptions C39_removals_partial.
Print Assumptions C39_failed_attempt_partial.
Print Assumptions C39_agents_name_a_hop.
Print Assumptions C39_full_refuted.
Print Assumptions C40_blocks_partial.
Print Assumptions C40_not_processed.
Print Assumptions C40_removed_partial.
Print Assumptions C40_full_refuted.
Print Assumptions C41_reports_partial.
Print Assumptions C41_full_refuted.
Print Assumptions C65_not_transmitted.
Print Assumptions C65_full_refuted.
