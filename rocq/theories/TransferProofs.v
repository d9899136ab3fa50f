(** What is handed to the convergence layers (C33, C34, C35). *)
From stdpp Require Import prelude strings pretty gmap sorting.
From Coq Require Import NArith Lia ZifyBool ZifyN ZifyNat.
From Verif Require Import Core StoreMem Peers Routing Pipeline PipelineBase PipelineProofs PipelineInv.
Open Scope N_scope.

(** ** Blocks *)
Definition header (k : block) : N * N * kflags := (k_type k, k_num k, k_flags k).
Lemma update_header t d l : map header (update_first t d l) = map header l.
Proof. induction l as [|k l IH]; cbn; [done|]. destruct (_ =? _); cbn; [done|by rewrite IH]. Qed.
Lemma find_update_same t d l :
  List.find (fun k => k_type k =? t) (update_first t d l) =
  (fun k => set_data k d) <$> List.find (fun k => k_type k =? t) l.
Proof.
  induction l as [|k l IH]; cbn; [done|]. destruct (k_type k =? t) eqn:E; cbn; by rewrite E.
Qed.
Lemma find_update_other t t' d l : t <> t' ->
  List.find (fun k => k_type k =? t') (update_first t d l) = List.find (fun k => k_type k =? t') l.
Proof.
  intros Hne. induction l as [|k l IH]; cbn; [done|]. destruct (k_type k =? t) eqn:E; cbn.
  - apply N.eqb_eq in E. destruct (k_type k =? t') eqn:E'; [apply N.eqb_eq in E'; congruence|done].
  - by rewrite IH.
Qed.
Lemma filter_update (P : block -> Prop) `{forall k, Decision (P k)} t d l :
  (forall k, k_type k = t -> ~ P k) -> (forall k k', k_type k = k_type k' -> P k -> P k') ->
  filter P (update_first t d l) = filter P l.
Proof.
  intros HP Hext. induction l as [|k l IH]; [done|]. cbn [update_first]. destruct (k_type k =? t) eqn:E.
  - apply N.eqb_eq in E. rewrite !filter_cons_False; [done|by apply HP|by apply HP].
  - rewrite !filter_cons, IH. done.
Qed.
Lemma max_num_le l k : k ∈ l -> k_num k <= max_num l.
Proof. induction 1; cbn; [lia|]. fold (max_num l). unfold max_num in *. lia. Qed.

Section stages.
Context (host : eid).
Lemma hop_primary b b' : hop_stage b = Some b' -> same_primary b' b.
Proof.
  unfold hop_stage. destruct (block_by_type _ b) as [[? ? ? []]|]; try (by intros [= <-]).
  destruct (_ <? _); [done|]. by intros [= <-].
Qed.
Lemma prev_primary b b' : prev_stage host b = Some b' -> same_primary b' b.
Proof. unfold prev_stage. destruct (block_by_type _ b) as [[? ? ? []]|]; try done; by intros [= <-]. Qed.
Lemma age_primary b la b' : age_stage b la b' -> same_primary b' b.
Proof.
  unfold age_stage. destruct (block_by_type _ b) as [[? ? ? []]|]; naive_solver.
Qed.
Lemma age_no_get b l b' id r : age_stage b l b' -> LAct (SGet id) r ∉ l.
Proof.
  intros H Hin. assert (HF : Forall (fun l => match l with LAct (SGet _) _ => False | _ => True end) l).
  { unfold age_stage in H. destruct (block_by_type BUNDLE_AGE_BLOCK b) as [[? ? ? []]|];
      try (destruct H as (om & -> & _); by repeat constructor); try (destruct H as [-> _]; by repeat constructor).
    destruct H as [[-> _]|(m & now & -> & _)]; by repeat constructor. }
  rewrite Forall_forall in HF. by specialize (HF _ Hin).
Qed.
Lemma same_primary_trans a b c : same_primary a b -> same_primary b c -> same_primary a c.
Proof. unfold same_primary. congruence. Qed.

(** hop count through the stages *)
Definition hop_of (b : bundle) : option (N * N) :=
  match block_by_type HOP_COUNT_BLOCK b with Some (Block _ _ _ (CHop l c)) => Some (l, c) | _ => None end.
Definition age_of (b : bundle) : option N :=
  match block_by_type BUNDLE_AGE_BLOCK b with Some (Block _ _ _ (CAge a)) => Some a | _ => None end.
Definition prev_of (b : bundle) : option eid :=
  match block_by_type PREVIOUS_NODE_BLOCK b with Some (Block _ _ _ (CPrev e)) => Some e | _ => None end.
Lemma prev_other t b b' : prev_stage host b = Some b' -> t <> PREVIOUS_NODE_BLOCK -> block_by_type t b' = block_by_type t b.
Proof.
  unfold prev_stage. intros H Ht. destruct (block_by_type PREVIOUS_NODE_BLOCK b) as [[? ? ? []]|] eqn:E; try done;
    injection H as <-; unfold block_by_type.
  - by apply find_update_other.
  - cbn [add_block with_blocks b_blocks List.find k_type]. destruct (PREVIOUS_NODE_BLOCK =? t) eqn:E6; [apply N.eqb_eq in E6; congruence|done].
Qed.
Lemma hop_other t b b' : hop_stage b = Some b' -> t <> HOP_COUNT_BLOCK -> block_by_type t b' = block_by_type t b.
Proof.
  unfold hop_stage. intros H Ht. destruct (block_by_type HOP_COUNT_BLOCK b) as [[? ? ? []]|]; try congruence.
  destruct (_ <? _); [done|]. injection H as <-. by apply find_update_other.
Qed.
Lemma age_other t b la b' : age_stage b la b' -> t <> BUNDLE_AGE_BLOCK -> block_by_type t b' = block_by_type t b.
Proof.
  unfold age_stage. intros H Ht.
  destruct (block_by_type BUNDLE_AGE_BLOCK b) as [[? ? ? []]|]; try naive_solver.
  destruct H as [[_ ->]|(m & now & _ & [[_ ->]|(_ & _ & ->)])]; try done. by apply find_update_other.
Qed.
Lemma hop_result b b' : hop_stage b = Some b' ->
  match hop_of b with
  | None => hop_of b' = None
  | Some (l, c) => hop_of b' = Some (l, (c + 1) mod 256) /\ (c + 1) mod 256 <= l
  end.
Proof.
  unfold hop_stage, hop_of. intros H.
  destruct (block_by_type HOP_COUNT_BLOCK b) as [[? ? ? []]|] eqn:E;
    try (injection H as <-; by rewrite E).
  destruct (limit <? (count + 1) mod 256) eqn:El; [done|]. injection H as <-.
  unfold block_by_type in *. cbn. rewrite find_update_same, E. cbn. split; [done|]. by apply N.ltb_ge in El.
Qed.
Lemma prev_result b b' : prev_stage host b = Some b' -> prev_of b' = Some host.
Proof.
  unfold prev_stage, prev_of. intros H.
  destruct (block_by_type PREVIOUS_NODE_BLOCK b) as [[? ? ? []]|] eqn:E; try done; injection H as <-.
  - unfold block_by_type in *. cbn. rewrite find_update_same, E. done.
  - done.
Qed.
Lemma new_age_exact age now recv : recv <= now -> now < 2^64 -> age + (now - recv) < 2^64 ->
  new_age age now recv = age + (now - recv).
Proof.
  intros H1 H2 H3. unfold new_age.
  rewrite (N.mod_small recv) by lia.
  replace (now + 2^64 - recv) with (now - recv + 1 * 2^64) by lia.
  rewrite N.mod_add by lia. rewrite (N.mod_small (now - recv)) by lia. apply N.mod_small. lia.
Qed.
Lemma sum3 x y z : x + (y - z) = 0 -> x = 0.
Proof. lia. Qed.
Lemma age_result b la b' : age_stage b la b' ->
  match age_of b with
  | None => age_of b' = age_of b
  | Some age =>
      la = [LAct (SMeta (bid b)) None] \/
      exists m now, la = [LAct (SMeta (bid b)) (Some m); LAct Clock now] /\
        (p_recv m <= now -> now < 2^64 -> age + (now - p_recv m) < 2^64 ->
         age_of b' = Some (age + (now - p_recv m)) /\
         (age + (now - p_recv m) < b_life b * 1000 \/ age + (now - p_recv m) = 0))
  end.
Proof.
  unfold age_stage, age_of. intros H.
  destruct (block_by_type BUNDLE_AGE_BLOCK b) as [[? ? ? []]|] eqn:E.
  1,2,4,5: by destruct H as (om & _ & ->); rewrite E.
  2: destruct H as [_ ->]; by rewrite E.
  destruct H as [[-> _]|(m & now & -> & H)]; [by left|]. right. exists m, now. split; [done|].
  intros H1 H2 H3. rewrite (new_age_exact _ _ _ H1 H2 H3) in H.
  destruct H as [[H0 ->]|(H0 & Hl & ->)].
  - rewrite E. assert (age = 0) by (by eapply sum3). subst. split; [by rewrite H0|by right].
  - unfold block_by_type in *. cbn. rewrite find_update_same, E. cbn. split; [done|by left].
Qed.
(** the other blocks *)
Definition ext (k : block) : Prop := k_type k = PREVIOUS_NODE_BLOCK \/ k_type k = BUNDLE_AGE_BLOCK \/ k_type k = HOP_COUNT_BLOCK.
Global Instance ext_dec k : Decision (ext k).
Proof. unfold ext. apply _. Defined.
Lemma filter_ext_update t d l : (t = PREVIOUS_NODE_BLOCK \/ t = BUNDLE_AGE_BLOCK \/ t = HOP_COUNT_BLOCK) ->
  filter (fun k => ~ ext k) (update_first t d l) = filter (fun k => ~ ext k) l.
Proof.
  intros Ht. apply filter_update.
  - intros k Hk Hn. apply Hn. unfold ext. by rewrite Hk.
  - intros k k' Hk Hn He. apply Hn. unfold ext in *. by rewrite Hk.
Qed.
Lemma hop_blocks b b' : hop_stage b = Some b' ->
  filter (fun k => ~ ext k) (b_blocks b') = filter (fun k => ~ ext k) (b_blocks b) /\
  map header (b_blocks b') = map header (b_blocks b).
Proof.
  unfold hop_stage. destruct (block_by_type HOP_COUNT_BLOCK b) as [[? ? ? []]|]; try (by intros [= <-]).
  destruct (_ <? _); [done|]. intros [= <-]. cbn. split; [apply filter_ext_update; auto|apply update_header].
Qed.
Lemma age_blocks b la b' : age_stage b la b' ->
  filter (fun k => ~ ext k) (b_blocks b') = filter (fun k => ~ ext k) (b_blocks b) /\
  map header (b_blocks b') = map header (b_blocks b).
Proof.
  unfold age_stage. destruct (block_by_type BUNDLE_AGE_BLOCK b) as [[? ? ? []]|]; try naive_solver.
  intros [[_ ->]|(m & now & _ & [[_ ->]|(_ & _ & ->)])]; try done. cbn.
  split; [apply filter_ext_update; auto|apply update_header].
Qed.
Lemma header_num l : map k_num l = map (fun h => snd (fst h)) (map header l).
Proof. by rewrite map_map. Qed.
Lemma prev_blocks b b' : prev_stage host b = Some b' ->
  filter (fun k => ~ ext k) (b_blocks b') = filter (fun k => ~ ext k) (b_blocks b) /\
  (map header (b_blocks b') = map header (b_blocks b) \/
   block_by_type PREVIOUS_NODE_BLOCK b = None /\
   exists n, map header (b_blocks b') = (PREVIOUS_NODE_BLOCK, n, no_kflags) :: map header (b_blocks b) /\
     n ∉ map k_num (b_blocks b)).
Proof.
  unfold prev_stage. destruct (block_by_type PREVIOUS_NODE_BLOCK b) as [[? ? ? []]|]; try done; intros [= <-]; cbn [b_blocks with_blocks add_block].
  - split; [apply filter_ext_update; auto|]. left. apply update_header.
  - split.
    + rewrite filter_cons_False; [done|]. intros Hn. apply Hn. left. done.
    + right. split; [done|]. eexists. split; [done|]. intros Hin.
      apply elem_of_list_fmap in Hin as (k & Hk & Hin). apply max_num_le in Hin. rewrite <- Hk in Hin. cbn in Hin. lia.
Qed.
End stages.

Section transfer.
Context (host : eid) (gen_reports parallel : bool) (parse_record : list N -> option arecord)
        (lifetime_exceeded : N -> bundle -> bool).
Notation task_of := (task_of host gen_reports parallel parse_record).
Notation mstep := (mstep host gen_reports parallel parse_record lifetime_exceeded).
Notation run := (run host gen_reports parallel parse_record lifetime_exceeded).
Notation access := (access host lifetime_exceeded).

Lemma transfer_reads t1 i s b r t2 m :
  run (t1 ++ EStep i (LAct (Transfer s b) r) :: t2) m ->
  exists ta tb m0 stored b1 b2 la hs nodes,
    t1 = ta ++ EStep i (LAct (SGet (bid b)) (Some stored)) :: tb /\
    run ta m0 /\ m_bundles (n_store (m_node m0)) !! bid b = Some stored /\
    did i tb = LAct (LifetimeOver stored) false :: la ++ hs /\
    hop_stage stored = Some b1 /\ prev_stage host b1 = Some b2 /\ age_stage b2 la b /\
    same_primary b stored /\ Forall (sub (bid b) b nodes) hs.
Proof.
  intros Hr.
  destruct (run_safe _ _ _ _ _ (fun _ => I_transfer host) _ _ _ _ _ (all_transfer host gen_reports parallel parse_record) Hr)
    as (k & Hk & HI).
  destruct HI as (h0 & hs & id & nodes & Hd & Hb & Hsub).
  destruct Hb as (hh & stored & b1 & b2 & la & -> & H1 & H2 & H3).
  assert (Hp : same_primary b stored).
  { eapply same_primary_trans; [by eapply age_primary|]. eapply same_primary_trans; [by eapply prev_primary|by eapply hop_primary]. }
  rewrite <- !app_assoc in Hd. cbn in Hd.
  destruct (did_split _ _ _ _ _ Hd) as (ta & tb & -> & _ & Htb).
  rewrite <- app_assoc in Hr. cbn in Hr.
  destruct (run_access _ _ _ _ _ _ _ _ _ _ _ Hr) as (m0 & m1 & Hr0 & Ha & _).
  cbn in Ha. destruct Ha as [Ha _]. symmetry in Ha. unfold mem_get in Ha.
  assert (bid stored = id) by (by eapply (iv_bundle _ _ (run_inv _ _ _ _ _ _ _ Hr0))).
  assert (Hid : bid b = id) by (rewrite (same_primary_bid _ _ Hp); done).
  exists ta, tb, m0, stored, b1, b2, la, hs, nodes. rewrite Hid. done.
Qed.

(** metadata is never dropped *)
Lemma meta_stays_store o r now s id : is_Some (m_meta s !! id) -> is_Some (m_meta (store_after o r now s) !! id).
Proof.
  intros H. destruct o; cbn; try done.
  - destruct r; [|done]. cbn. destruct (m_bundles s !! bid b); [done|].
    destruct (decide (id = bid b)) as [->|]; [rewrite lookup_insert; eauto|by rewrite lookup_insert_ne].
  - destruct r as [[]|]; try done. cbn. destruct (m_bundles s !! bid b); [done|].
    destruct (decide (id = bid b)) as [->|]; [rewrite lookup_insert; eauto|by rewrite lookup_insert_ne].
  - unfold mem_remove. destruct (m_meta s !! id0) as [p|] eqn:E; [|done].
    assert (Hu : forall q, is_Some (m_meta (fst (mem_update q s)) !! id)).
    { intros q. unfold mem_update. destruct (m_meta s !! p_id q); [|done]. cbn.
      destruct (decide (id = p_id q)) as [->|]; [rewrite lookup_insert; eauto|by rewrite lookup_insert_ne]. }
    specialize (Hu (tombstone p)). destruct (mem_update (tombstone p) s) as [s' []]; [|done].
    destruct (m_bundles s' !! id0); done.
  - destruct r; [|done]. unfold mem_update. destruct (m_meta s !! p_id p); [|done]. cbn.
    destruct (decide (id = p_id p)) as [->|]; [rewrite lookup_insert; eauto|by rewrite lookup_insert_ne].
Qed.
Lemma meta_stays_step m e m' id : mstep m e m' -> is_Some (m_meta (n_store (m_node m)) !! id) ->
  is_Some (m_meta (n_store (m_node m')) !! id).
Proof.
  intros Hs H. destruct Hs as [| |  | | | |m i k p o r p' n' _ _ Ha| |]; try done.
  - cbn. by destruct (has_endpoint e (m_node m)).
  - cbn. destruct (access_store _ _ _ _ _ _ Ha) as [->|(? & _ & ->)]; [|done]. by apply meta_stays_store.
Qed.
(** states reached later *)
Lemma run_continue t1 t2 m : run (t1 ++ t2) m -> exists m1, run t1 m1 /\
  (forall id, is_Some (m_meta (n_store (m_node m1)) !! id) -> is_Some (m_meta (n_store (m_node m)) !! id)).
Proof.
  revert m. induction t2 as [|e t2 IH] using rev_ind; intros m H; [rewrite app_nil_r in H; eauto|].
  inversion H as [? ? E|tr m0 e0 m' Hr Hs E].
  - destruct t1; [destruct t2; done|done].
  - rewrite app_assoc in E. apply app_inj_tail in E as [-> ->]. destruct (IH _ Hr) as (m1 & Hm1 & Hm2).
    exists m1. split; [done|]. intros id Hid. eapply meta_stays_step; [done|]. by apply Hm2.
Qed.
Lemma get_then_meta ta i id b tb j om tc m :
  run (ta ++ EStep i (LAct (SGet id) (Some b)) :: tb ++ EStep j (LAct (SMeta id) om) :: tc) m -> is_Some om.
Proof.
  intros H. rewrite app_comm_cons, app_assoc in H.
  destruct (run_access _ _ _ _ _ _ _ _ _ _ _ H) as (m1 & _ & H1 & [-> _] & _).
  rewrite cons_middle, app_assoc in H1. destruct (run_continue _ _ _ H1) as (m2 & H2 & Hm).
  destruct (run_access _ _ _ _ _ _ _ _ _ _ _ H2) as (m3 & m4 & H3 & Ha & H4).
  assert (H2' := H2). inversion H2' as [? ? E|tr m0 e0 m' Hr Hs E]; [by destruct ta|].
  apply app_inj_tail in E as [-> ->].
  apply Hm. eapply meta_stays_step; [done|]. apply (iv_both _ _ (run_inv _ _ _ _ _ _ _ Hr)).
  inversion Hs; subst.
  repeat match goal with H : existT _ _ = existT _ _ |- _ => apply (Eqdep_dec.inj_pair2_eq_dec _ (fun x y => decide (x = y))) in H end.
  subst. match goal with Ha : access _ _ _ n' |- _ => cbn in Ha; destruct Ha as [Ha _] end. eauto.
Qed.

End transfer.
