(** Proofs about the stores (C09-C13, C15, C16). *)
From Verif Require Import Core StoreMem StoreSled.
From stdpp Require Import prelude strings gmap sorting.
From Coq Require Import NArith Lia Sorting.Sorted.
Open Scope N_scope.

(** ** Specification: what a history leaves behind (newest operation first) *)
Fixpoint latest (rev_ops : list op) (id : string) : option bundle :=
  match rev_ops with
  | [] => None
  | Push _ b :: r => if decide (bid b = id) then Some b else latest r id
  | Remove i :: r => if decide (i = id) then None else latest r id
  | Update _ :: r => latest r id
  end.
Definition pushed (ops : list op) (id : string) : Prop := exists now b, Push now b ∈ ops /\ bid b = id.

(** ** In-memory store *)
Record mem_inv (s : mem) : Prop := {
  mi_key : forall id p, m_meta s !! id = Some p -> p_id p = id;
  mi_meta : forall id b, m_bundles s !! id = Some b -> is_Some (m_meta s !! id);
  mi_bundle : forall id b, m_bundles s !! id = Some b -> bid b = id
}.
Lemma mem_inv0 : mem_inv mem0.
Proof. split; cbn; intros ??; by rewrite lookup_empty. Qed.

Lemma mem_update_spec p s : mem_inv s ->
  fst (mem_update p s) = Mem (m_bundles s) (if decide (is_Some (m_meta s !! p_id p)) then <[p_id p := p]> (m_meta s) else m_meta s).
Proof.
  intros _. unfold mem_update. destruct (m_meta s !! p_id p) eqn:E; cbn.
  - rewrite decide_True by eauto. done.
  - rewrite decide_False by (intros [? ?]; done). by destruct s.
Qed.
Lemma mem_remove_spec id s : mem_inv s ->
  fst (mem_remove id s) = Mem (delete id (m_bundles s)) (alter tombstone id (m_meta s)) /\
  snd (mem_remove id s) = bool_decide (is_Some (m_bundles s !! id)).
Proof.
  intros [Hk Hm Hb]. unfold mem_remove. destruct (m_meta s !! id) as [p|] eqn:E.
  - assert (Hid : p_id (tombstone p) = id) by (rewrite tombstone_id; by apply Hk).
    unfold mem_update. rewrite Hid, E. cbn [m_bundles m_meta].
    assert (Ha : alter tombstone id (m_meta s) = <[id := tombstone p]> (m_meta s)).
    { apply map_eq. intros i. destruct (decide (i = id)) as [->|Hne].
      - by rewrite lookup_alter, lookup_insert, E.
      - by rewrite lookup_alter_ne, lookup_insert_ne by done. }
    rewrite Ha. destruct (m_bundles s !! id) eqn:Eb; cbn [fst snd].
    + split; [done|]. done.
    + split; [by rewrite delete_notin by done|]. done.
  - destruct (m_bundles s !! id) eqn:Eb.
    { apply Hm in Eb as [? ?]. congruence. }
    cbn. split.
    + rewrite delete_notin by done.
      replace (alter tombstone id (m_meta s)) with (m_meta s); [by destruct s|].
      apply map_eq. intros i. destruct (decide (i = id)) as [->|Hne]; [by rewrite lookup_alter, E|by rewrite lookup_alter_ne].
    + done.
Qed.

Lemma mem_inv_remove id s : mem_inv s -> mem_inv (fst (mem_remove id s)).
Proof.
  intros Hi. destruct (mem_remove_spec id s Hi) as [-> _]. destruct Hi as [Hk Hm Hb]. split; cbn.
  - intros i p. rewrite lookup_alter_Some. intros [[-> (q & Hq & ->)]|[_ Hq]]; [rewrite tombstone_id|]; by apply Hk.
  - intros i b [_ H]%lookup_delete_Some. apply Hm in H. destruct (decide (i = id)) as [->|Hne].
    + rewrite lookup_alter. by apply fmap_is_Some.
    + by rewrite lookup_alter_ne.
  - intros i b [_ H]%lookup_delete_Some. by apply Hb.
Qed.
Lemma mem_inv_update p s : mem_inv s -> mem_inv (fst (mem_update p s)).
Proof.
  intros Hi. rewrite mem_update_spec by done. destruct Hi as [Hk Hm Hb]. split; cbn.
  - intros i q. case_decide; [|by apply Hk]. rewrite lookup_insert_Some. intros [[<- <-]|[_ H']]; [done|by apply Hk].
  - intros i b H. apply Hm in H. case_decide; [|done]. apply lookup_insert_is_Some. destruct (decide (p_id p = i)); eauto.
  - done.
Qed.
Lemma mem_inv_push now b s : mem_inv s -> mem_inv (mem_push now b s).
Proof.
  intros [Hk Hm Hb]. unfold mem_push. split; cbn.
  - intros i q. destruct (m_bundles s !! bid b); [by apply Hk|].
    rewrite lookup_insert_Some. intros [[<- <-]|[_ H]]; [done|by apply Hk].
  - intros i b'. rewrite lookup_insert_Some. intros [[<- <-]|[Hne H]].
    + destruct (m_bundles s !! bid b) eqn:E; [by eapply Hm|]. by rewrite lookup_insert.
    + apply Hm in H. destruct (m_bundles s !! bid b); [done|]. by rewrite lookup_insert_ne.
  - intros i b'. rewrite lookup_insert_Some. intros [[<- <-]|[Hne H]]; [done|by apply Hb].
Qed.
Lemma mem_inv_step o s : mem_inv s -> mem_inv (mem_step s o).
Proof. destruct o; cbn; [apply mem_inv_push|apply mem_inv_update|apply mem_inv_remove]. Qed.
Lemma mem_inv_fold ops s : mem_inv s -> mem_inv (fold_left mem_step ops s).
Proof. revert s. induction ops as [|o ops IH]; intros s Hs; [done|]. cbn. by apply IH, mem_inv_step. Qed.
Lemma mem_inv_run ops : mem_inv (mem_run ops).
Proof. apply mem_inv_fold, mem_inv0. Qed.

Lemma mem_run_snoc ops o : mem_run (ops ++ [o]) = mem_step (mem_run ops) o.
Proof. unfold mem_run. by rewrite fold_left_app. Qed.

(** C09 *)
Lemma mem_get_latest ops id : mem_get id (mem_run ops) = latest (rev ops) id.
Proof.
  unfold mem_get. induction ops as [|o ops IH] using rev_ind; [done|].
  rewrite mem_run_snoc, rev_unit. pose proof (mem_inv_run ops) as Hi. destruct o as [now b|p|i]; cbn.
  - case_decide; [subst; by rewrite lookup_insert|by rewrite lookup_insert_ne].
  - rewrite mem_update_spec by done. done.
  - destruct (mem_remove_spec i _ Hi) as [-> _]. cbn.
    case_decide; [subst; by rewrite lookup_delete|by rewrite lookup_delete_ne].
Qed.
Lemma mem_meta_forever ops id : pushed ops id -> is_Some (mem_meta_of id (mem_run ops)).
Proof.
  unfold mem_meta_of. induction ops as [|o ops IH] using rev_ind; [intros (? & ? & H & _); by apply elem_of_nil in H|].
  intros (now & b & Hin & Hid). rewrite mem_run_snoc. pose proof (mem_inv_run ops) as Hi.
  apply elem_of_app in Hin as [Hin|Hin].
  - assert (Hs : is_Some (m_meta (mem_run ops) !! id)) by (apply IH; exists now, b; done).
    destruct o as [now' b'|p|i]; cbn.
    + destruct (m_bundles _ !! _); [done|]. apply lookup_insert_is_Some. destruct (decide (bid b' = id)); eauto.
    + rewrite mem_update_spec by done. cbn. case_decide; [|done]. apply lookup_insert_is_Some. destruct (decide (p_id p = id)); eauto.
    + destruct (mem_remove_spec i _ Hi) as [-> _]. cbn. destruct (decide (id = i)) as [->|Hne].
      * rewrite lookup_alter. by apply fmap_is_Some.
      * by rewrite lookup_alter_ne.
  - apply elem_of_list_singleton in Hin as <-. cbn. subst id.
    pose proof (mi_meta _ (mem_inv_push now b _ Hi) (bid b) b) as H. apply H. cbn. by rewrite lookup_insert.
Qed.
Lemma mem_meta_pushed ops id : is_Some (mem_meta_of id (mem_run ops)) -> pushed ops id.
Proof.
  induction ops as [|o ops IH] using rev_ind; [intros [? H]; unfold mem_meta_of in H; cbn in H; by rewrite lookup_empty in H|].
  assert (Hk : pushed ops id -> pushed (ops ++ [o]) id).
  { intros (now & b & Hin & H). exists now, b. split; [apply elem_of_app; by left|done]. }
  rewrite mem_run_snoc. assert (Hi := mem_inv_run ops). unfold mem_meta_of in *. destruct o as [now b|p|i]; cbn [mem_step].
  - unfold mem_push. cbn [m_meta]. destruct (m_bundles (mem_run ops) !! bid b); [intros H; by apply Hk, IH|].
    destruct (decide (bid b = id)) as [E|Hn].
    + intros _. exists now, b. split; [apply elem_of_app; right; left|done].
    + rewrite lookup_insert_ne by done. intros H. by apply Hk, IH.
  - rewrite mem_update_spec by done. cbn [m_meta]. case_decide as Hd; [|intros H; by apply Hk, IH].
    intros H. apply Hk, IH. destruct (decide (p_id p = id)) as [<-|Hn]; [done|]. by rewrite lookup_insert_ne in H.
  - rewrite (proj1 (mem_remove_spec i _ Hi)). cbn [m_meta]. intros H. apply Hk, IH. destruct (decide (i = id)) as [->|Hn].
    + rewrite lookup_alter in H. destruct (m_meta (mem_run ops) !! id); [eauto|by destruct H].
    + by rewrite lookup_alter_ne in H.
Qed.
Lemma mem_all_ids_spec ops id : id ∈ mem_all_ids (mem_run ops) <-> is_Some (latest (rev ops) id).
Proof.
  rewrite <- mem_get_latest. unfold mem_all_ids, mem_get. rewrite elem_of_list_fmap. split.
  - intros ([i b] & -> & H%elem_of_map_to_list). cbn. eauto.
  - intros [b Hb]. exists (id, b). by rewrite elem_of_map_to_list.
Qed.
Lemma mem_all_ids_nodup s : NoDup (mem_all_ids s).
Proof. apply NoDup_fst_map_to_list. Qed.
Lemma mem_count_length s : mem_count s = length (mem_all_ids s).
Proof. unfold mem_count, mem_all_ids. rewrite map_length. unfold size, map_size. done. Qed.

(** C10 *)
Lemma elem_filter_ids (P : pack -> bool) s id : mem_inv s ->
  id ∈ map p_id (filter (fun p => P p = true) (mem_packs s)) <-> exists p, m_meta s !! id = Some p /\ P p = true.
Proof.
  intros [Hk _ _]. unfold mem_packs. rewrite elem_of_list_fmap. split.
  - intros (p & -> & [Hp Hin]%elem_of_list_filter). apply elem_of_list_fmap in Hin as ([i q] & Hq & Hin).
    apply elem_of_map_to_list in Hin. cbn in Hq. subst q. exists p. split; [|done].
    pose proof (Hk _ _ Hin) as Hi. by rewrite Hi.
  - intros (p & Hp & HP). exists p. split; [by rewrite (Hk _ _ Hp)|].
    apply elem_of_list_filter. split; [done|]. apply elem_of_list_fmap. exists (id, p). by rewrite elem_of_map_to_list.
Qed.

Definition touches (id : string) (o : op) : Prop :=
  match o with Push _ b => bid b = id | Update p => p_id p = id | Remove _ => False end.
Definition quiet_meta (m : option pack) : Prop := match m with Some p => exists q, p = tombstone q | None => True end.
Lemma tombstone_twice p : exists q, tombstone (tombstone p) = tombstone q.
Proof. eauto. Qed.

Lemma mem_removed_stays ops1 id ops2 :
  Forall (fun o => ~ touches id o) ops2 ->
  quiet_meta (m_meta (mem_run (ops1 ++ Remove id :: ops2)) !! id).
Proof.
  intros Hq. replace (ops1 ++ Remove id :: ops2) with ((ops1 ++ [Remove id]) ++ ops2) by (by rewrite <- app_assoc).
  induction ops2 as [|o ops2 IH] using rev_ind.
  - rewrite app_nil_r, mem_run_snoc. cbn. destruct (mem_remove_spec id _ (mem_inv_run ops1)) as [-> _]. cbn.
    rewrite lookup_alter. destruct (m_meta (mem_run ops1) !! id); cbn; eauto.
  - apply Forall_app in Hq as [Hq Ho]. apply Forall_cons in Ho as [Ho _]. specialize (IH Hq).
    rewrite app_assoc, mem_run_snoc. set (s := mem_run _) in *.
    assert (Hi : mem_inv s) by apply mem_inv_run. destruct o as [now b|p|i]; cbn in *.
    + destruct (m_bundles s !! bid b); [done|]. by rewrite lookup_insert_ne by done.
    + rewrite mem_update_spec by done. cbn. case_decide; [|done]. by rewrite lookup_insert_ne by done.
    + destruct (mem_remove_spec i s Hi) as [-> _]. cbn. destruct (decide (id = i)) as [->|Hne].
      * rewrite lookup_alter. destruct (m_meta s !! i); cbn in *; [|done]. eauto.
      * by rewrite lookup_alter_ne.
Qed.

Lemma quiet_not_pending p : is_pending (tombstone p) = false.
Proof. unfold is_pending. by rewrite !tombstone_has. Qed.

(** C15 *)
Definition purgeable (now : N) (p : pack) : Prop :=
  has_constraint p Deleted = false /\ p_life p <> 0 /\ p_time p + p_life p < now.

Lemma expired_spec now p : p_time p + p_life p < 2^64 ->
  has_expired now p = true <-> p_life p <> 0 /\ p_time p + p_life p < now.
Proof.
  intros Hb. unfold has_expired. rewrite N.mod_small by done. destruct (N.eqb_spec (p_life p) 0).
  - split; [done|]. intros []. done.
  - rewrite N.ltb_lt. tauto.
Qed.

Lemma expired_ids_spec now s id : mem_inv s ->
  id ∈ expired_ids now s <->
  exists p, m_meta s !! id = Some p /\ has_constraint p Deleted = false /\ has_expired now p = true.
Proof.
  intros Hi. unfold expired_ids. rewrite list_filter_filter.
  pose proof (elem_filter_ids (fun p => has_expired now p && negb (has_constraint p Deleted)) s id Hi) as H.
  etransitivity; [|etransitivity; [exact H|]].
  - rewrite !elem_of_list_fmap. split; intros (p & -> & Hp); exists p; (split; [done|]);
      rewrite elem_of_list_filter in *; rewrite andb_true_iff, negb_true_iff in *; tauto.
  - split; intros (p & H1 & H2); exists p; rewrite andb_true_iff, negb_true_iff in *; tauto.
Qed.

Lemma remove_all_lookup ids : forall s, mem_inv s ->
  let s' := fold_left (fun s id => fst (mem_remove id s)) ids s in
  mem_inv s' /\
  (forall id, id ∉ ids -> m_bundles s' !! id = m_bundles s !! id /\ m_meta s' !! id = m_meta s !! id) /\
  (forall id, id ∈ ids -> m_bundles s' !! id = None).
Proof.
  induction ids as [|i ids IH]; intros s Hi; cbn.
  - split; [done|]. split; [done|]. intros id Hid. by apply elem_of_nil in Hid.
  - destruct (IH _ (mem_inv_remove i s Hi)) as (H1 & H2 & H3). split; [done|].
    destruct (mem_remove_spec i s Hi) as [Hr _]. split.
    + intros id Hid. apply not_elem_of_cons in Hid as [Hne Hid]. destruct (H2 id Hid) as [-> ->].
      rewrite Hr. cbn. by rewrite lookup_delete_ne, lookup_alter_ne by done.
    + intros id Hid. destruct (decide (id ∈ ids)) as [Hin|Hnin]; [by apply H3|].
      apply elem_of_cons in Hid as [->|?]; [|done]. destruct (H2 i Hnin) as [-> _]. rewrite Hr. cbn. by rewrite lookup_delete.
Qed.

Lemma delete_expired_spec now s id p :
  mem_inv s -> m_meta s !! id = Some p -> p_time p + p_life p < 2^64 ->
  (purgeable now p -> mem_get id (delete_expired now s) = None) /\
  (~ purgeable now p -> mem_get id (delete_expired now s) = mem_get id s /\ mem_meta_of id (delete_expired now s) = Some p).
Proof.
  intros Hi Hp Hb. unfold mem_get, mem_meta_of, delete_expired.
  destruct (remove_all_lookup (expired_ids now s) s Hi) as (_ & H2 & H3). cbv zeta in *. unfold purgeable. split.
  - intros (Hd & He). apply H3. apply expired_ids_spec; [done|]. exists p. split; [done|]. split; [done|]. by apply expired_spec.
  - intros Hn. destruct (H2 id) as [-> ->]; [|done]. rewrite expired_ids_spec by done.
    intros (q & Hq & Hd & He). rewrite Hp in Hq. injection Hq as <-. apply expired_spec in He; [|done]. tauto.
Qed.
Lemma delete_expired_inv now s : mem_inv s -> mem_inv (delete_expired now s).
Proof. intros Hi. by apply remove_all_lookup. Qed.

(** C16 *)
Lemma omap_meta_ids l s : mem_inv s ->
  (forall p, p ∈ l -> m_meta s !! p_id p = Some p) ->
  omap (fun id => mem_meta_of id s) (map p_id l) = l.
Proof.
  intros Hi. induction l as [|p l IH]; intros H; [done|]. cbn. unfold mem_meta_of at 1.
  rewrite (H p ltac:(left)). f_equal. apply IH. intros q Hq. apply H. by right.
Qed.
Lemma packs_lookup s p : mem_inv s -> p ∈ mem_packs s <-> m_meta s !! p_id p = Some p.
Proof.
  intros [Hk _ _]. unfold mem_packs. rewrite elem_of_list_fmap. split.
  - intros ([i q] & -> & H%elem_of_map_to_list). cbn. by rewrite (Hk _ _ H).
  - intros H. exists (p_id p, p). by rewrite elem_of_map_to_list.
Qed.
Lemma packs_nodup s : mem_inv s -> NoDup (map p_id (mem_packs s)).
Proof.
  intros [Hk _ _]. unfold mem_packs. rewrite map_map.
  replace (map (fun x => p_id x.2) (map_to_list (m_meta s))) with (map fst (map_to_list (m_meta s))).
  - apply NoDup_fst_map_to_list.
  - apply map_ext_in. intros [i p] Hin%elem_of_list_In. apply elem_of_map_to_list in Hin. cbn. symmetry. by apply Hk.
Qed.
Lemma nodup_filter_ids (P : pack -> Prop) `{!forall p, Decision (P p)} l : NoDup (map p_id l) -> NoDup (map p_id (filter P l)).
Proof.
  induction l as [|p l IH]; [done|]. intros Hn. cbn [map] in Hn. apply NoDup_cons in Hn as [Hp Hl]. rewrite filter_cons. case_decide; [|by apply IH].
  cbn. apply NoDup_cons. split; [|by apply IH]. intros (q & Hq & Hin)%elem_of_list_fmap. apply Hp.
  apply elem_of_list_fmap. exists q. split; [done|]. by apply elem_of_list_filter in Hin as [_ ?].
Qed.
Global Instance by_time_total : Total by_time.
Proof. intros a b. unfold by_time. lia. Qed.
Global Instance by_time_trans : Transitive by_time.
Proof. intros a b c. unfold by_time. lia. Qed.

Lemma to_forward_perm acc s : mem_inv s -> existsb (fun b => b) acc = true ->
  to_forward acc s ≡ₚ filter (fun p => has_constraint p ForwardPending = true /\ has_constraint p Deleted = false) (mem_packs s).
Proof.
  intros Hi Ha. unfold to_forward. rewrite Ha. rewrite merge_sort_Permutation.
  unfold mem_forwarding, mem_filter. rewrite omap_meta_ids; [|done|].
  - rewrite list_filter_filter. erewrite list_filter_iff; [reflexivity|]. intros p. cbn.
    rewrite andb_true_r. tauto.
  - intros p [_ Hp]%elem_of_list_filter. by apply packs_lookup.
Qed.
Lemma to_forward_spec acc s : mem_inv s -> existsb (fun b => b) acc = true ->
  NoDup (map p_id (to_forward acc s)) /\
  (forall p, p ∈ to_forward acc s <->
     mem_meta_of (p_id p) s = Some p /\ has_constraint p ForwardPending = true /\ has_constraint p Deleted = false) /\
  StronglySorted (fun a b => p_time a <= p_time b) (to_forward acc s).
Proof.
  intros Hi Ha. pose proof (to_forward_perm acc s Hi Ha) as Hp. split; [|split].
  - rewrite Hp. apply nodup_filter_ids. by apply packs_nodup.
  - intros p. rewrite Hp, elem_of_list_filter, packs_lookup by done. unfold mem_meta_of. tauto.
  - unfold to_forward. rewrite Ha. apply (StronglySorted_merge_sort by_time).
Qed.

(** ** sled store *)
Record disk_inv (d : disk) : Prop := {
  di_key : forall id p, d_meta d !! id = Some p -> p_id p = id;
  di_meta : forall id b, d_bundles d !! id = Some b -> is_Some (d_meta d !! id);
  di_bundle : forall id b, d_bundles d !! id = Some b -> bid b = id
}.
(** id an operation works on *)
Definition op_id (o : op) : string := match o with Push _ b => bid b | Update p => p_id p | Remove id => id end.

Lemma disk_inv0 : disk_inv disk0.
Proof. split; cbn; intros ??; by rewrite lookup_empty. Qed.

Definition write_ok (d : disk) (w : write) : Prop :=
  match w with
  | WMeta id p => p_id p = id
  | WBundle id b => bid b = id /\ is_Some (d_meta d !! id)
  | WDel id => True
  end.
Lemma apply_inv d w : disk_inv d -> write_ok d w -> disk_inv (do_write d w).
Proof.
  intros [H1 H2 H3] Hw. destruct w as [id p|id b|id]; cbn in *; split; cbn.
  - intros i q. rewrite lookup_insert_Some. intros [[<- <-]|[_ H]]; [done|by apply H1].
  - intros i b Hb. apply H2 in Hb. apply lookup_insert_is_Some. destruct (decide (id = i)); eauto.
  - done.
  - done.
  - intros i b'. rewrite lookup_insert_Some. intros [[<- <-]|[_ H]]; [by destruct Hw|by eapply H2].
  - intros i b'. rewrite lookup_insert_Some. intros [[<- <-]|[_ H]]; [by destruct Hw|by eapply H3].
  - done.
  - intros i b [_ H]%lookup_delete_Some. by eapply H2.
  - intros i b [_ H]%lookup_delete_Some. by eapply H3.
Qed.

Lemma take_S1 {A} k (x : A) : take (S k) [x] = [x].
Proof. by destruct k. Qed.
Lemma take_S2 {A} k (x y : A) : take (S (S k)) [x; y] = [x; y].
Proof. by destruct k. Qed.
(** every prefix of the writes of an operation keeps the invariant *)
Lemma take_writes_inv o d k : disk_inv d -> disk_inv (apply_all d (take k (fst (sled_op o d)))).
Proof.
  intros Hd. pose proof Hd as [H1 H2 H3]. destruct o as [now b|p|id]; cbn [sled_op].
  - unfold sled_push. destruct (d_bundles d !! bid b) eqn:E.
    + destruct k as [|k]; [done|]. cbn [fst]. rewrite take_S1. cbn [apply_all fold_left]. apply (apply_inv d (WBundle _ _)); [done|]. cbn.
      split; [done|]. by eapply H2.
    + destruct (d_meta d !! bid b) eqn:Em; [cbn [fst]; by rewrite take_nil|].
      assert (Hd1 : disk_inv (do_write d (WMeta (bid b) (pack_of now b)))) by (by apply apply_inv).
      destruct k as [|[|k]]; [done|exact Hd1|]. cbn [fst]. rewrite take_S2. cbn [apply_all fold_left].
      apply apply_inv; [done|]. cbn. split; [done|]. by rewrite lookup_insert.
  - unfold sled_update. destruct (d_meta d !! p_id p) eqn:E; [|cbn [fst]; by rewrite take_nil].
    destruct k as [|k]; [done|]. cbn [fst]. rewrite take_S1. by apply (apply_inv d (WMeta _ _)).
  - unfold sled_remove. destruct (d_meta d !! id) as [p|] eqn:E; [|cbn [fst]; by rewrite take_nil].
    rewrite tombstone_id, (H1 _ _ E), E.
    assert (Hd1 : disk_inv (do_write d (WMeta id (tombstone p)))) by (apply apply_inv; [done|]; cbn; by apply H1).
    destruct k as [|[|k]]; [done|exact Hd1|]. cbn [fst]. rewrite take_S2. cbn [apply_all fold_left].
    by apply apply_inv.
Qed.
Lemma step_take o d : sled_step d o = apply_all d (take (length (fst (sled_op o d))) (fst (sled_op o d))).
Proof. unfold sled_step. by rewrite take_ge. Qed.
Lemma live_inv l d : disk_inv d -> disk_inv (sled_live d l).
Proof. destruct l as [o|o k]; cbn; [rewrite step_take|]; apply take_writes_inv. Qed.
Lemma fold_live_inv ls d : disk_inv d -> disk_inv (fold_left sled_live ls d).
Proof. revert d. induction ls as [|l ls IH]; intros d Hd; [done|]. cbn. by apply IH, live_inv. Qed.
Lemma run_inv ls : disk_inv (sled_run ls).
Proof. apply fold_live_inv, disk_inv0. Qed.

(** other ids are untouched, whatever prefix of the writes is executed *)
Lemma take_writes_frame o d k i : disk_inv d -> i <> op_id o ->
  let d' := apply_all d (take k (fst (sled_op o d))) in
  d_bundles d' !! i = d_bundles d !! i /\ d_meta d' !! i = d_meta d !! i.
Proof.
  intros [H1 _ _] Hne. cbv zeta.
  assert (Hw : forall w, w ∈ take k (fst (sled_op o d)) ->
     match w with WMeta id _ | WBundle id _ | WDel id => id = op_id o end).
  { intros w Hw. apply elem_of_take in Hw as (j & Hw & _). apply elem_of_list_lookup_2 in Hw.
    destruct o as [now b|p|id]; cbn in *; unfold sled_push, sled_update, sled_remove in Hw.
    - destruct (_ !! _); [|destruct (_ !! _)]; cbn in Hw; rewrite ?elem_of_cons, ?elem_of_nil in Hw; naive_solver.
    - destruct (_ !! _); cbn in Hw; rewrite ?elem_of_cons, ?elem_of_nil in Hw; naive_solver.
    - destruct (d_meta d !! id) as [q|] eqn:E; [|by apply elem_of_nil in Hw].
      pose proof (H1 _ _ E) as Hq. rewrite tombstone_id, Hq, E in Hw. cbn in Hw.
      rewrite ?elem_of_cons, ?elem_of_nil in Hw. naive_solver. }
  revert Hw. generalize (take k (fst (sled_op o d))) as ws. clear k H1.
  intros ws Hw. revert d. induction ws as [|w ws IH]; intros d; [done|].
  change (apply_all d (w :: ws)) with (apply_all (do_write d w) ws).
  destruct (IH (fun w' Hw' => Hw w' ltac:(by right)) (do_write d w)) as [-> ->].
  specialize (Hw w ltac:(left)). destruct w as [id p|id b|id]; subst id; cbn; rewrite ?lookup_insert_ne, ?lookup_delete_ne by done; done.
Qed.

(** metadata is never lost *)
Lemma take_writes_meta o d k i : is_Some (d_meta d !! i) -> is_Some (d_meta (apply_all d (take k (fst (sled_op o d)))) !! i).
Proof.
  generalize (take k (fst (sled_op o d))) as ws. intros ws. revert d. induction ws as [|w ws IH]; intros d Hd; [done|].
  change (apply_all d (w :: ws)) with (apply_all (do_write d w) ws). apply IH. destruct w; cbn; [|done|done]. apply lookup_insert_is_Some. destruct (decide (id = i)); eauto.
Qed.
Lemma live_meta l d i : is_Some (d_meta d !! i) -> is_Some (d_meta (sled_live d l) !! i).
Proof. destruct l as [o|o k]; cbn; [rewrite step_take|]; apply take_writes_meta. Qed.
Lemma fold_live_meta ls : forall d i, is_Some (d_meta d !! i) -> is_Some (d_meta (fold_left sled_live ls d) !! i).
Proof. induction ls as [|l ls IH]; intros d i Hd; [done|]. cbn. by apply IH, live_meta. Qed.

Lemma push_meta now b d : disk_inv d -> is_Some (d_meta (sled_step d (Push now b)) !! bid b).
Proof.
  intros [H1 H2 H3]. unfold sled_step. cbn [sled_op]. unfold sled_push.
  destruct (d_bundles d !! bid b) eqn:E; cbn; [by eapply H2|].
  destruct (d_meta d !! bid b) eqn:Em; cbn; [by rewrite Em|]. by rewrite lookup_insert.
Qed.
Lemma push_ok now b d : snd (sled_push now b d) = SOk -> d_bundles (sled_step d (Push now b)) !! bid b = Some b.
Proof.
  unfold sled_step. cbn [sled_op]. unfold sled_push.
  destruct (d_bundles d !! bid b) eqn:E; cbn; [intros _; by rewrite lookup_insert|].
  destruct (d_meta d !! bid b) eqn:Em; cbn; [done|]. intros _. by rewrite lookup_insert.
Qed.

(** a tombstoned id is never accepted again *)
Lemma no_readmission ls b' b now now' d :
  disk_inv d -> bid b' = bid b ->
  snd (sled_add_if_unknown now' b' (fold_left sled_live ls (sled_step d (Push now b)))) <> Some true.
Proof.
  intros Hd Hid. unfold sled_add_if_unknown. destruct (sled_has _ _) eqn:E; [done|].
  pose proof (fold_live_meta ls _ _ (push_meta now b d Hd)) as [p Hp].
  unfold sled_has in E. apply bool_decide_eq_false in E. rewrite Hid in *.
  unfold sled_push. rewrite Hid. destruct (d_bundles _ !! bid b) eqn:Eb; [exfalso; eauto|]. by rewrite Hp.
Qed.

Lemma no_rewriting ls b' b now now' d :
  disk_inv d -> bid b' = bid b -> let d' := fold_left sled_live ls (sled_step d (Push now b)) in
  apply_all d' (fst (sled_add_if_unknown now' b' d')) = d'.
Proof.
  intros Hd Hid. cbv zeta. unfold sled_add_if_unknown. destruct (sled_has _ _) eqn:E; [done|].
  pose proof (fold_live_meta ls _ _ (push_meta now b d Hd)) as [p Hp].
  unfold sled_has in E. apply bool_decide_eq_false in E. rewrite Hid in *.
  unfold sled_push. rewrite Hid. destruct (d_bundles _ !! bid b) eqn:Eb; [exfalso; eauto|]. by rewrite Hp.
Qed.

(** an acknowledged bundle stays until it is removed *)
Definition life_op (l : life) : op := match l with Done o => o | Crash o _ => o end.
Lemma take_writes_keep o d k i b : disk_inv d -> d_bundles d !! i = Some b -> o <> Remove i ->
  exists b', d_bundles (apply_all d (take k (fst (sled_op o d)))) !! i = Some b' /\
    ((forall now c, o = Push now c -> bid c <> i) -> b' = b).
Proof.
  intros Hd Hb Hne. destruct (decide (i = op_id o)) as [He|Hn].
  - destruct o as [now c|p|id]; cbn in He.
    + subst i. cbn [sled_op]. unfold sled_push. rewrite Hb. cbn [fst]. destruct k as [|k].
      * exists b. cbn. done.
      * rewrite take_S1. cbn. rewrite lookup_insert. exists c. split; [done|]. intros H. by destruct (H now c eq_refl).
    + cbn [sled_op]. unfold sled_update. exists b. split; [|done].
      destruct (d_meta d !! p_id p); cbn [fst]; [|by rewrite take_nil]. destruct k; [done|]. by rewrite take_S1.
    + by subst.
  - exists b. split; [|done]. destruct (take_writes_frame o d k i Hd Hn) as [-> _]. done.
Qed.
Lemma lives_keep ls : forall d i b, disk_inv d -> d_bundles d !! i = Some b ->
  Forall (fun l => life_op l <> Remove i) ls ->
  exists b', d_bundles (fold_left sled_live ls d) !! i = Some b' /\
    (Forall (fun l => forall now c, life_op l = Push now c -> bid c <> i) ls -> b' = b).
Proof.
  induction ls as [|l ls IH]; intros d i b Hd Hb Hr; [exists b; done|].
  apply Forall_cons in Hr as [Hr Hrs]. cbn [fold_left].
  assert (Hl : exists b', d_bundles (sled_live d l) !! i = Some b' /\
     ((forall now c, life_op l = Push now c -> bid c <> i) -> b' = b)).
  { destruct l as [o|o k]; cbn in *; [rewrite step_take|]; by apply take_writes_keep. }
  destruct Hl as (b1 & Hb1 & Hc1). destruct (IH _ i b1 (live_inv l d Hd) Hb1 Hrs) as (b2 & Hb2 & Hc2).
  exists b2. split; [done|]. intros Hp. apply Forall_cons in Hp as [Hp Hps]. rewrite Hc2 by done. by apply Hc1.
Qed.
(** reads of present bundles never panic *)
Lemma sled_removed_not_listed d id p : disk_inv d -> d_meta d !! id = Some (tombstone p) ->
  id ∉ sled_forwarding d /\ id ∉ sled_pending d.
Proof.
  intros [H1 _ _] Hp. unfold sled_forwarding, sled_filter, sled_pending, sled_packs.
  split; intros (q & Hq & [HP Hin]%elem_of_list_filter)%elem_of_list_fmap;
    apply elem_of_list_fmap in Hin as ([i q'] & -> & Hin); apply elem_of_map_to_list in Hin; cbn in *;
    pose proof (H1 _ _ Hin) as Hi; rewrite Hi in Hq; subst i; rewrite Hp in Hin; injection Hin as <-.
  - discriminate HP.
  - by rewrite quiet_not_pending in HP.
Qed.

Lemma sled_filter_ids (P : pack -> bool) d id : disk_inv d ->
  id ∈ map p_id (filter (fun p => P p = true) (sled_packs d)) <-> exists p, d_meta d !! id = Some p /\ P p = true.
Proof.
  intros Hd. unfold sled_packs. rewrite elem_of_list_fmap. split.
  - intros (p & -> & [Hp Hin]%elem_of_list_filter). apply elem_of_list_fmap in Hin as ([i q] & Hq & Hin).
    apply elem_of_map_to_list in Hin. cbn in Hq. subst q. exists p. split; [|done].
    pose proof (di_key _ Hd _ _ Hin) as Hi. by rewrite Hi.
  - intros (p & Hp & HP). exists p. split; [by rewrite (di_key _ Hd _ _ Hp)|].
    apply elem_of_list_filter. split; [done|]. apply elem_of_list_fmap. exists (id, p). by rewrite elem_of_map_to_list.
Qed.
Lemma take_writes_quiet o d k id : disk_inv d -> ~ touches id o ->
  quiet_meta (d_meta d !! id) -> quiet_meta (d_meta (apply_all d (take k (fst (sled_op o d)))) !! id).
Proof.
  intros Hd Ht Hq. destruct (decide (id = op_id o)) as [->|Hne].
  - destruct o as [now b|p|i]; cbn in *; [done|done|].
    destruct (d_meta d !! i) as [p|] eqn:E; [|unfold sled_remove; rewrite E; cbn [fst]; rewrite take_nil; cbn; by rewrite E].
    assert (Hr : fst (sled_remove i d) = [WMeta i (tombstone p); WDel i]).
    { unfold sled_remove. rewrite E, tombstone_id. rewrite (di_key _ Hd _ _ E), E. done. }
    rewrite Hr. destruct k as [|[|k]]; cbn [take apply_all fold_left do_write d_meta]; [by rewrite E|by rewrite lookup_insert; cbn; eauto|].
    rewrite take_nil. cbn. rewrite lookup_insert. cbn. eauto.
  - destruct (take_writes_frame o d k id Hd Hne) as [_ ->]. done.
Qed.
Lemma lives_quiet ls : forall d id, disk_inv d -> Forall (fun l => ~ touches id (life_op l)) ls ->
  quiet_meta (d_meta d !! id) -> quiet_meta (d_meta (fold_left sled_live ls d) !! id).
Proof.
  induction ls as [|l ls IH]; intros d id Hd Hf Hq; [done|]. apply Forall_cons in Hf as [Hl Hf]. cbn.
  apply IH; [by apply live_inv|done|].
  destruct l as [o|o k]; cbn in *; [rewrite step_take|]; by apply take_writes_quiet.
Qed.
Lemma remove_quiet d id : disk_inv d -> quiet_meta (d_meta (sled_step d (Remove id)) !! id).
Proof.
  intros Hd. unfold sled_step. cbn [sled_op]. unfold sled_remove. destruct (d_meta d !! id) as [p|] eqn:E.
  - rewrite tombstone_id, (di_key _ Hd _ _ E), E. cbn. rewrite lookup_insert. cbn. eauto.
  - cbn. by rewrite E.
Qed.
Lemma sled_quiet_not_listed d id : disk_inv d -> quiet_meta (d_meta d !! id) ->
  id ∉ sled_forwarding d /\ id ∉ sled_pending d.
Proof.
  intros Hd Hq. destruct (d_meta d !! id) as [p|] eqn:E.
  - destruct Hq as [q ->]. by eapply sled_removed_not_listed.
  - unfold sled_forwarding, sled_filter, sled_pending, sled_packs.
    split; intros (q & Hx & [HP Hin]%elem_of_list_filter)%elem_of_list_fmap;
      apply elem_of_list_fmap in Hin as ([i q'] & -> & Hin); apply elem_of_map_to_list in Hin; cbn in *;
      rewrite (di_key _ Hd _ _ Hin) in Hx; subst; congruence.
Qed.
