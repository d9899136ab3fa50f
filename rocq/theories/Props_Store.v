(** C09-C16, C57, C58: bundle stores (models: Core.v, StoreMem.v, StoreSled.v,
    Sneakers.v). *)
From Verif Require Import Core StoreMem StoreSled StoreProofs Sneakers IdProofs.
From stdpp Require Import prelude strings gmap pretty.
From Coq Require Import NArith Lia Sorting.Sorted.
Open Scope N_scope.

(** A bundle used in the examples. *)
Definition plain := BFlags false false false false false false false.
Definition ex_b (seq life : N) : bundle :=
  Bundle plain (Dtn "b" "x") (Dtn "a" "") (Dtn "a" "") 1000 seq life 0 0
    [Block PAYLOAD_BLOCK 1 (KFlags false false false false) (CData [1; 2; 3])].

(** ** C09 *)
(** [b] is the content of the latest push of [id], and [id] was not removed
    after it. *)
Definition holds (ops : list op) (id : string) (b : bundle) : Prop :=
  exists before now after,
    ops = before ++ Push now b :: after /\ bid b = id /\
    (forall o, o ∈ after -> o <> Remove id /\ forall now' c, o = Push now' c -> bid c <> id).

Lemma latest_holds ops id b : latest (rev ops) id = Some b <-> holds ops id b.
Proof.
  induction ops as [|o ops IH] using rev_ind.
  - split; [done|]. intros (x & n & y & H & _). by destruct x.
  - rewrite rev_unit.
    assert (Hkeep : (o <> Remove id /\ forall now' c, o = Push now' c -> bid c <> id) ->
                    (holds ops id b <-> holds (ops ++ [o]) id b)).
    { intros Ho. split.
      - intros (x & n & y & -> & Hb & Hy). exists x, n, (y ++ [o]). split; [by rewrite <- app_assoc|]. split; [done|].
        intros o' [H|H]%elem_of_app; [by apply Hy|]. apply elem_of_list_singleton in H. by subst.
      - intros (x & n & y & H & Hb & Hy). destruct y as [|o' y _] using rev_ind.
        + apply app_inj_tail in H as [-> ->]. destruct Ho as [_ Ho]. by destruct (Ho n b eq_refl).
        + replace (x ++ Push n b :: y ++ [o']) with ((x ++ Push n b :: y) ++ [o']) in H by (by rewrite <- app_assoc).
          apply app_inj_tail in H as [-> ->]. exists x, n, y. split; [done|]. split; [done|].
          intros o'' Ho''. apply Hy. apply elem_of_app. by left. }
    destruct o as [now c|p|i]; cbn [latest].
    + case_decide as Hd.
      * split.
        { intros [= ->]. exists ops, now, []. split; [done|]. split; [done|]. intros o Ho. by apply elem_of_nil in Ho. }
        { intros (x & n & y & H & Hb & Hy). destruct y as [|o' y _] using rev_ind.
          - apply app_inj_tail in H as [-> [= -> ->]]. done.
          - replace (x ++ Push n b :: y ++ [o']) with ((x ++ Push n b :: y) ++ [o']) in H by (by rewrite <- app_assoc).
            apply app_inj_tail in H as [-> <-]. destruct (Hy (Push now c)) as [_ Hc]; [apply elem_of_app; right; by apply elem_of_list_singleton|].
            by destruct (Hc now c eq_refl). }
      * rewrite IH. apply Hkeep. split; [done|]. intros ? ? [= -> ->]. done.
    + rewrite IH. apply Hkeep. done.
    + case_decide as Hd.
      * subst i. split; [done|]. intros (x & n & y & H & Hb & Hy). destruct y as [|o' y _] using rev_ind.
        { by apply app_inj_tail in H as [_ H]. }
        { replace (x ++ Push n b :: y ++ [o']) with ((x ++ Push n b :: y) ++ [o']) in H by (by rewrite <- app_assoc).
          apply app_inj_tail in H as [-> <-]. destruct (Hy (Remove id)) as [Hc _]; [apply elem_of_app; right; by apply elem_of_list_singleton|].
          done. }
      * rewrite IH. apply Hkeep. split; [|done]. intros [= ->]. done.
Qed.

Theorem C09_mem_store_is_a_map : forall ops,
  let s := mem_run ops in
  (forall id b, mem_get id s = Some b <-> holds ops id b) /\
  (forall id, mem_has id s = true <-> exists b, holds ops id b) /\
  (forall id, id ∈ mem_all_ids s <-> exists b, holds ops id b) /\
  NoDup (mem_all_ids s) /\ mem_count s = length (mem_all_ids s) /\
  (forall id, snd (mem_remove id s) = true <-> exists b, holds ops id b) /\
  (forall now b, Push now b ∈ ops -> exists p, mem_meta_of (bid b) s = Some p /\ p_id p = bid b).
Proof.
  intros ops s. assert (Hg : forall id b, mem_get id s = Some b <-> holds ops id b).
  { intros id b. unfold s. rewrite mem_get_latest. apply latest_holds. }
  assert (Hs : forall id, is_Some (mem_get id s) <-> exists b, holds ops id b).
  { intros id. split; intros [b Hb]; exists b; by apply Hg. }
  split; [done|]. split; [|split; [|split; [|split; [|split]]]].
  - intros id. rewrite <- Hs. unfold mem_has. by rewrite bool_decide_eq_true.
  - intros id. rewrite <- Hs. unfold s. rewrite mem_get_latest. apply mem_all_ids_spec.
  - apply mem_all_ids_nodup.
  - apply mem_count_length.
  - intros id. rewrite <- Hs. destruct (mem_remove_spec id s (mem_inv_run ops)) as [_ ->]. by rewrite bool_decide_eq_true.
  - intros now b Hin. destruct (mem_meta_forever ops (bid b)) as [p Hp]; [exists now, b; done|].
    exists p. split; [done|]. by eapply mi_key; [apply (mem_inv_run ops)|].
Qed.
Print Assumptions C09_mem_store_is_a_map.

(** The metadata of an id: fresh when the bundle comes in and is not stored; as
    written by an update of a known id; without any constraint but "deleted" (and
    "local endpoint", which marks a property of the bundle) after a removal;
    otherwise as before. *)
Definition fresh (now : N) (b : bundle) (p : pack) : Prop :=
  p_id p = bid b /\ p_src p = b_src b /\ p_dst p = b_dst b /\ p_recv p = now /\ p_time p = b_time b /\
  p_life p = b_life b /\ p_admin p = bf_admin (b_flags b) /\ forall c, has_constraint p c = false.
Definition marked_deleted (p p' : pack) : Prop :=
  p_id p' = p_id p /\ p_src p' = p_src p /\ p_dst p' = p_dst p /\ p_recv p' = p_recv p /\ p_time p' = p_time p /\
  p_life p' = p_life p /\ p_admin p' = p_admin p /\
  forall c, has_constraint p' c = match c with Deleted => true | LocalEndpoint => has_constraint p c | _ => false end.
Definition about (o : op) : string := match o with Push _ b => bid b | Update p => p_id p | Remove id => id end.
Theorem C09_metadata : forall ops o id,
  let old := mem_meta_of id (mem_run ops) in
  let new := mem_meta_of id (mem_run (ops ++ [o])) in
  (about o <> id -> new = old) /\
  (forall now b, o = Push now b -> bid b = id ->
     if mem_has id (mem_run ops) then new = old else exists p, new = Some p /\ fresh now b p) /\
  (forall p, o = Update p -> p_id p = id -> (is_Some old -> new = Some p) /\ (old = None -> new = None)) /\
  (o = Remove id -> (forall p, old = Some p -> exists p', new = Some p' /\ marked_deleted p p') /\ (old = None -> new = None)).
Proof.
  intros ops o id old new. subst old new. rewrite mem_run_snoc. assert (Hi := mem_inv_run ops). set (s := mem_run ops) in *. unfold mem_meta_of.
  split; [|split; [|split]].
  - intros Hn. destruct o as [now b|p|i]; cbn [about mem_step] in *.
    + unfold mem_push. cbn [m_meta]. destruct (m_bundles s !! bid b); [done|]. by rewrite lookup_insert_ne.
    + rewrite mem_update_spec by done. cbn [m_meta]. case_decide; [by rewrite lookup_insert_ne|done].
    + rewrite (proj1 (mem_remove_spec i s Hi)). cbn [m_meta]. by rewrite lookup_alter_ne.
  - intros now b -> <-. cbn [mem_step]. unfold mem_has, mem_push. cbn [m_meta]. destruct (m_bundles s !! bid b) as [c|] eqn:E.
    + by rewrite bool_decide_true by eauto.
    + rewrite bool_decide_false by (by intros [? ?]). rewrite lookup_insert. eexists. split; [done|]. repeat split. by intros [].
  - intros p -> <-. cbn [mem_step]. rewrite mem_update_spec by done. cbn [m_meta]. split.
    + intros H. rewrite decide_True by done. by rewrite lookup_insert.
    + intros H. rewrite decide_False by (by intros [? ?]; congruence). done.
  - intros ->. cbn [mem_step]. rewrite (proj1 (mem_remove_spec id s Hi)). cbn [m_meta]. rewrite lookup_alter. split.
    + intros p ->. eexists. split; [done|]. repeat split. by intros [].
    + by intros ->.
Qed.
Print Assumptions C09_metadata.

Example C09_case :
  let b := ex_b 1 60 in let c := ex_b 2 60 in
  holds [Push 5 b; Push 6 c; Remove (bid c)] (bid b) b /\
  ~ (exists x, holds [Push 5 b; Push 6 c; Remove (bid c)] (bid c) x) /\
  mem_count (mem_run [Push 5 b; Push 6 c; Remove (bid c)]) = 1%nat.
Proof.
  cbv zeta. split; [|split].
  - apply latest_holds. vm_compute. reflexivity.
  - intros [x Hx]. apply latest_holds in Hx. vm_compute in Hx. discriminate.
  - vm_compute. reflexivity.
Qed.

(** ** C10 *)
(** [o] may legitimately put [id] on a listing again. *)
Definition renews (id : string) (o : op) : Prop :=
  (exists now b, o = Push now b /\ bid b = id) \/ (exists p, o = Update p /\ p_id p = id).
Lemma renews_touches id o : renews id o <-> touches id o.
Proof.
  split.
  - intros [(now & b & -> & H)|(p & -> & H)]; done.
  - destruct o as [now b|p|i]; cbn; [left|right|done]; eauto.
Qed.

Theorem C10_removed_not_forwarded_mem : forall before id after,
  (forall o, o ∈ after -> ~ renews id o) ->
  let s := mem_run (before ++ Remove id :: after) in
  id ∉ mem_forwarding s /\ id ∉ mem_pending s /\
  (forall acc p, p ∈ to_forward acc s -> p_id p <> id).
Proof.
  intros before id after Ha s.
  assert (Hq : quiet_meta (m_meta s !! id)).
  { apply mem_removed_stays. apply Forall_forall. intros o Ho H. apply renews_touches in H. by apply (Ha o). }
  assert (Hi : mem_inv s) by apply mem_inv_run. split; [|split].
  - unfold mem_forwarding, mem_filter. rewrite (elem_filter_ids (fun p => forallb (has_constraint p) [ForwardPending])) by done. intros (p & Hp & H).
    rewrite Hp in Hq. destruct Hq as [q ->]. done.
  - unfold mem_pending. rewrite (elem_filter_ids is_pending) by done. intros (p & Hp & H).
    rewrite Hp in Hq. destruct Hq as [q ->]. by rewrite quiet_not_pending in H.
  - intros acc p Hp He. destruct (existsb (fun b => b) acc) eqn:E.
    + apply to_forward_spec in Hp as (Hp & Hf & _); [|done|done]. unfold mem_meta_of in Hp. rewrite He in Hp. rewrite Hp in Hq.
      destruct Hq as [q ->]. done.
    + unfold to_forward in Hp. rewrite E in Hp. by apply elem_of_nil in Hp.
Qed.
Print Assumptions C10_removed_not_forwarded_mem.

Theorem C10_removed_not_forwarded_sled : forall before id after,
  (forall l, l ∈ after -> ~ renews id (life_op l)) ->
  let d := sled_run (before ++ Done (Remove id) :: after) in
  id ∉ sled_forwarding d /\ id ∉ sled_pending d.
Proof.
  intros before id after Ha d. assert (Hd : disk_inv d) by apply run_inv. apply sled_quiet_not_listed; [done|].
  subst d. unfold sled_run. rewrite fold_left_app. cbn [fold_left sled_live]. apply lives_quiet.
  - apply (live_inv (Done (Remove id))), run_inv.
  - apply Forall_forall. intros l Hl H. apply renews_touches in H. by apply (Ha l).
  - apply remove_quiet, run_inv.
Qed.
Print Assumptions C10_removed_not_forwarded_sled.

(** The listings are exact in both stores: whatever the history, an id is listed
    for forwarding iff its metadata says forward-pending, and listed as pending
    iff it is forward-pending or contraindicated and not waiting for
    reassembly; the listing for any set of flags has those with all of them. *)
Theorem C10_listings_exact_mem : forall ops id, let s := mem_run ops in
  (id ∈ mem_forwarding s <-> exists p, mem_meta_of id s = Some p /\ has_constraint p ForwardPending = true) /\
  (id ∈ mem_pending s <-> exists p, mem_meta_of id s = Some p /\ has_constraint p ReassemblyPending = false /\
     (has_constraint p ForwardPending = true \/ has_constraint p Contraindicated = true)) /\
  (forall flags, id ∈ mem_filter flags s <-> exists p, mem_meta_of id s = Some p /\ forall c, c ∈ flags -> has_constraint p c = true).
Proof.
  intros ops id s. assert (Hi : mem_inv s) by apply mem_inv_run. split; [|split].
  - unfold mem_forwarding, mem_filter. rewrite (elem_filter_ids (fun p => forallb (has_constraint p) [ForwardPending])) by done.
    cbn [forallb]. split; intros (p & Hp & H); exists p; by rewrite andb_true_r in *.
  - unfold mem_pending. rewrite (elem_filter_ids is_pending) by done. unfold is_pending.
    split; intros (p & Hp & H); exists p; rewrite andb_true_iff, negb_true_iff, orb_true_iff in *; done.
  - intros flags. unfold mem_filter. rewrite (elem_filter_ids (fun p => forallb (has_constraint p) flags)) by done.
    split; intros (p & Hp & H); exists p; (split; [done|]); rewrite forallb_forall in *; intros c Hc; apply H; by apply elem_of_list_In.
Qed.
Print Assumptions C10_listings_exact_mem.
Theorem C10_listings_exact_sled : forall ls id, let d := sled_run ls in
  (id ∈ sled_forwarding d <-> exists p, d_meta d !! id = Some p /\ has_constraint p ForwardPending = true) /\
  (id ∈ sled_pending d <-> exists p, d_meta d !! id = Some p /\ has_constraint p ReassemblyPending = false /\
     (has_constraint p ForwardPending = true \/ has_constraint p Contraindicated = true)) /\
  (forall flags, id ∈ sled_filter flags d <-> exists p, d_meta d !! id = Some p /\ forall c, c ∈ flags -> has_constraint p c = true).
Proof.
  intros ls id d. assert (Hi : disk_inv d) by apply run_inv. split; [|split].
  - unfold sled_forwarding, sled_filter. rewrite (sled_filter_ids (fun p => forallb (has_constraint p) [ForwardPending])) by done.
    cbn [forallb]. split; intros (p & Hp & H); exists p; by rewrite andb_true_r in *.
  - unfold sled_pending. rewrite (sled_filter_ids is_pending) by done. unfold is_pending.
    split; intros (p & Hp & H); exists p; rewrite andb_true_iff, negb_true_iff, orb_true_iff in *; done.
  - intros flags. unfold sled_filter. rewrite (sled_filter_ids (fun p => forallb (has_constraint p) flags)) by done.
    split; intros (p & Hp & H); exists p; (split; [done|]); rewrite forallb_forall in *; intros c Hc; apply H; by apply elem_of_list_In.
Qed.
Print Assumptions C10_listings_exact_sled.

Example C10_case :
  let b := ex_b 1 60 in let p := add_constraint (pack_of 5 b) ForwardPending in
  bid b ∈ mem_forwarding (mem_run [Push 5 b; Update p]) /\
  bid b ∉ mem_forwarding (mem_run [Push 5 b; Update p; Remove (bid b); Push 6 (ex_b 2 0)]).
Proof.
  cbv zeta. split.
  - vm_compute. apply elem_of_list_here.
  - apply (proj1 (C10_removed_not_forwarded_mem
      [Push 5 (ex_b 1 60); Update (add_constraint (pack_of 5 (ex_b 1 60)) ForwardPending)] (bid (ex_b 1 60)) [Push 6 (ex_b 2 0)]
      ltac:(intros o Ho%elem_of_list_singleton; subst;
            intros [(n & b & H1 & H)|(p & H1 & _)]; [injection H1 as <- <-; vm_compute in H; discriminate|discriminate]))). 
Qed.

(** ** C11 *)
(** In-memory store: the claim is false, a copy of a deleted bundle is taken
    as new. *)
Definition C11_mem_full : Prop := forall ops now now' b b',
  bid b' = bid b ->
  snd (mem_add_if_unknown now' b' (mem_run (ops ++ [Push now b; Remove (bid b)]))) <> Some true.
Theorem C11_mem_tombstone_refuted : ~ C11_mem_full.
Proof. intros H. apply (H [] 5 6 (ex_b 1 60) (ex_b 1 60)); vm_compute; reflexivity. Qed.
Print Assumptions C11_mem_tombstone_refuted.
(** What holds for the in-memory store: only a stored bundle is refused; the store
    stays as it is. *)
Theorem C11_mem_tombstone_partial : forall ops now' b',
  (exists b, holds ops (bid b') b) -> snd (mem_add_if_unknown now' b' (mem_run ops)) = Some false /\
    fst (mem_add_if_unknown now' b' (mem_run ops)) = mem_run ops.
Proof.
  intros ops now' b' Hh. apply (proj1 (proj2 (C09_mem_store_is_a_map ops))) in Hh. unfold mem_add_if_unknown. by rewrite Hh.
Qed.
Print Assumptions C11_mem_tombstone_partial.

(** On-disk store: once pushed, whatever happened since (deletion, crashes),
    a copy is never accepted as new and nothing is written. *)
Theorem C11_sled_tombstone : forall before now b after now' b',
  bid b' = bid b ->
  let d := sled_run (before ++ Done (Push now b) :: after) in
  snd (sled_add_if_unknown now' b' d) <> Some true /\ apply_all d (fst (sled_add_if_unknown now' b' d)) = d.
Proof.
  intros before now b after now' b' Hid. cbv zeta. unfold sled_run. rewrite fold_left_app. cbn [fold_left sled_live].
  split; [apply no_readmission|apply no_rewriting]; by try apply run_inv.
Qed.
Print Assumptions C11_sled_tombstone.

Example C11_case :
  let b := ex_b 1 60 in
  snd (sled_add_if_unknown 9 b (sled_run [Done (Push 5 b); Done (Remove (bid b)); Crash (Push 7 (ex_b 2 1)) 1])) = None /\
  snd (sled_add_if_unknown 9 b (sled_run [])) = Some true.
Proof. split; vm_compute; reflexivity. Qed.

(** ** C12 *)
Theorem C12_sled_crash_consistent : forall ls,
  let d := sled_run ls in
  (** every listed bundle can be fetched, with metadata of its own id *)
  (forall id, id ∈ sled_all_ids d ->
     (exists b, sled_get id d = Some b /\ bid b = id) /\
     (exists p, sled_meta_of id d = Some p /\ p_id p = id)) /\
  (** a crash touches only the bundle being written *)
  (forall o k i, i <> op_id o ->
     sled_get i (sled_live d (Crash o k)) = sled_get i d /\
     sled_meta_of i (sled_live d (Crash o k)) = sled_meta_of i d).
Proof.
  intros ls d. assert (Hd : disk_inv d) by apply run_inv. split.
  - intros id Hid. unfold sled_all_ids in Hid. apply elem_of_list_fmap in Hid as ([i b] & -> & H%elem_of_map_to_list). cbn.
    split; [exists b; split; [done|by eapply di_bundle]|]. destruct (di_meta _ Hd _ _ H) as [p Hp]. exists p. split; [done|by eapply di_key].
  - intros o k i Hne. by apply (take_writes_frame o d k i).
Qed.
Print Assumptions C12_sled_crash_consistent.

(** An acknowledged push is durable: until somebody removes the bundle, it is
    there, with the acknowledged content unless it is pushed again. *)
Theorem C12_sled_acknowledged_stays : forall before now b after,
  snd (sled_push now b (sled_run before)) = SOk ->
  (forall l, l ∈ after -> life_op l <> Remove (bid b)) ->
  exists b', sled_get (bid b) (sled_run (before ++ Done (Push now b) :: after)) = Some b' /\
    ((forall l now' c, l ∈ after -> life_op l = Push now' c -> bid c <> bid b) -> b' = b).
Proof.
  intros before now b after Hok Ha. unfold sled_run. rewrite fold_left_app. cbn [fold_left sled_live].
  destruct (lives_keep after (sled_step (sled_run before) (Push now b)) (bid b) b) as (b' & Hb' & Hc).
  - apply (live_inv (Done (Push now b))), run_inv.
  - by apply push_ok.
  - by apply Forall_forall.
  - exists b'. split; [done|]. intros H. apply Hc. apply Forall_forall. intros l Hl now' c. by apply H.
Qed.
Print Assumptions C12_sled_acknowledged_stays.

Example C12_case :
  let b := ex_b 1 60 in let c := ex_b 2 60 in
  let d := sled_run [Done (Push 5 b); Done (Push 6 c); Crash (Remove (bid c)) 1; Done (Update (pack_of 9 b))] in
  sled_get (bid b) d = Some b /\ sled_get (bid c) d = Some c /\ length (sled_all_ids d) = 2%nat.
Proof. vm_compute. done. Qed.

(** ** C13 *)
Definition C13_full : Prop := forall ls now b k now',
  sled_meta_of (bid b) (sled_run ls) = None ->
  let d := sled_run (ls ++ [Crash (Push now b) k]) in
  sled_get (bid b) d = Some b \/ snd (sled_add_if_unknown now' b d) = Some true.
(** a crash between the metadata write and the bundle write blocks the id *)
Theorem C13_interrupted_reception_refuted : ~ C13_full.
Proof. intros H. destruct (H [] 5 (ex_b 1 60) 1%nat 6 ltac:(vm_compute; reflexivity)) as [H1|H1]; vm_compute in H1; discriminate. Qed.
Print Assumptions C13_interrupted_reception_refuted.
(** ... for good: no later history makes it receivable again. *)
Theorem C13_interrupted_reception_stuck : forall ls now b after now',
  sled_meta_of (bid b) (sled_run ls) = None ->
  snd (sled_add_if_unknown now' b (sled_run (ls ++ Crash (Push now b) 1 :: after))) <> Some true.
Proof.
  intros ls now b after now' Hm. unfold sled_run. rewrite fold_left_app. cbn [fold_left].
  set (d := sled_live _ _). assert (Hd : is_Some (d_meta d !! bid b)).
  { subst d. cbn [sled_live sled_op]. unfold sled_push. unfold sled_meta_of, sled_run in Hm.
    destruct (d_bundles (fold_left sled_live ls disk0) !! bid b) as [c|] eqn:E.
    { apply (di_meta _ (run_inv ls)) in E as [? E]. unfold sled_run in E. rewrite Hm in E. done. }
    rewrite Hm. cbn. rewrite lookup_insert. eauto. }
  apply (fold_live_meta after) in Hd as [p Hp]. unfold sled_add_if_unknown. destruct (sled_has _ _) eqn:E; [done|].
  unfold sled_has in E. apply bool_decide_eq_false in E. unfold sled_push.
  destruct (d_bundles _ !! bid b) eqn:E2; [exfalso; eauto|]. by rewrite Hp.
Qed.
Print Assumptions C13_interrupted_reception_stuck.
(** At every other crash point a retry works. *)
Theorem C13_interrupted_reception_partial : forall ls now b k now',
  sled_meta_of (bid b) (sled_run ls) = None -> k <> 1%nat ->
  let d := sled_run (ls ++ [Crash (Push now b) k]) in
  sled_get (bid b) d = Some b \/ snd (sled_add_if_unknown now' b d) = Some true.
Proof.
  intros ls now b k now' Hm Hk d. subst d. unfold sled_run. rewrite fold_left_app. cbn [fold_left].
  fold (sled_run ls). set (d := sled_run ls) in *. assert (Hb : d_bundles d !! bid b = None).
  { destruct (d_bundles d !! bid b) as [c|] eqn:E; [|done]. apply (di_meta _ (run_inv ls)) in E as [? E]. subst d. unfold sled_meta_of in Hm. congruence. }
  cbn [sled_live sled_op]. unfold sled_push. rewrite Hb. unfold sled_meta_of in Hm. rewrite Hm. cbn [fst].
  destruct k as [|[|k]]; [|done|].
  - right. cbn. unfold sled_add_if_unknown, sled_has. rewrite bool_decide_false by (rewrite Hb; by intros []).
    unfold sled_push. by rewrite Hb, Hm.
  - left. rewrite take_S2. cbn. unfold sled_get. cbn. by rewrite lookup_insert.
Qed.
Print Assumptions C13_interrupted_reception_partial.

(** ** C14 *)
Theorem C14_constraints_roundtrip : forall bit,
  (forall c c', bit c = bit c' -> c = c') ->
  (forall parse p d d', sn_update bit p d = (d', true) ->
     exists q, sn_meta bit parse (p_id p) d' = Some q /\ forall c, has_constraint q c = has_constraint p c) /\
  (forall parse p d id, id <> p_id p -> sn_meta bit parse id (fst (sn_update bit p d)) = sn_meta bit parse id d) /\
  (forall crit d parse id, id ∈ sn_filter bit crit d <->
     exists q, sn_meta bit parse id d = Some q /\ forall c, has_c crit c = true -> has_constraint q c = true) /\
  (* and the bundles listed as pending are those waiting for dispatch *)
  (forall d parse id, id ∈ sn_pending bit d <-> exists q, sn_meta bit parse id d = Some q /\ has_constraint q DispatchPending = true).
Proof.
  intros bit Hb. split; [|split; [|split]].
  - intros parse p d d' H. destruct (sn_readback bit Hb parse p d d' H) as (q & Hq & He).
    exists q. split; [done|]. intros c. unfold has_constraint. by rewrite He.
  - intros. by apply sn_meta_other.
  - intros crit d parse id. rewrite sn_filter_spec. split.
    + intros (r & Hr & H). unfold sn_meta. rewrite Hr. eexists. split; [done|]. exact H.
    + intros (q & Hq & H). unfold sn_meta in Hq. destruct (d !! id) as [r|] eqn:E; [|done]. injection Hq as <-. exists r. split; [done|]. exact H.
  - intros d parse id. rewrite sn_pending_spec. split.
    + intros (r & Hr & H). unfold sn_meta. rewrite Hr. by eexists.
    + intros (q & Hq & H). unfold sn_meta in Hq. destruct (d !! id) as [r|] eqn:E; [|done]. injection Hq as <-. by exists r.
Qed.
Print Assumptions C14_constraints_roundtrip.
(** a concrete assignment of bits; the other direction, on any bit pattern *)
Definition ex_bit (c : constraint) : N :=
  match c with DispatchPending => 0 | ForwardPending => 1 | ReassemblyPending => 2
  | Contraindicated => 3 | LocalEndpoint => 4 | Deleted => 5 end.
Example C14_case :
  (forall c c', ex_bit c = ex_bit c' -> c = c') /\
  to_bits ex_bit (CSet true false false true false true) = 41 /\
  of_bits ex_bit 41 = CSet true false false true false true.
Proof. split; [intros [] []; done|]. split; vm_compute; reflexivity. Qed.

(** ** C58 *)
Definition C58_full : Prop := forall bit parse p d d',
  (forall c c', bit c = bit c' -> c = c') -> sn_update bit p d = (d', true) ->
  exists q, sn_meta bit parse (p_id p) d' = Some q /\ p_admin q = p_admin p.
Theorem C58_sneakers_metadata_refuted : ~ C58_full.
Proof.
  intros H. set (p := Pack DtnNone DtnNone 0 0 0 "i" true no_constraints).
  set (d := {["i" := Row ("","") ("","") 0 0 0 0]} : gmap string row).
  destruct (H ex_bit (fun _ => DtnNone) p d (fst (sn_update ex_bit p d)) (proj1 C14_case) ltac:(vm_compute; reflexivity)) as (q & Hq & Ha).
  apply sn_admin_lost in Hq. rewrite Hq in Ha. discriminate.
Qed.
Print Assumptions C58_sneakers_metadata_refuted.
(** Identity, times and constraints are kept; updating changes nothing else. *)
Theorem C58_sneakers_metadata_partial : forall bit parse p d d' q q',
  (forall c c', bit c = bit c' -> c = c') -> sn_update bit p d = (d', true) ->
  sn_meta bit parse (p_id p) d = Some q -> sn_meta bit parse (p_id p) d' = Some q' ->
  p_id q' = p_id p /\ p_recv q' = p_recv q /\ p_life q' = p_life q /\ p_time q' = p_time q /\ p_cons q' = p_cons p /\
  p_src q' = p_src q /\ p_dst q' = p_dst q.
Proof.
  intros bit parse p d d' q q' Hb Hu Hq Hq'.
  destruct (sn_update_fields bit parse p d d' q q' Hu Hq Hq') as (H1 & H2 & H3 & H4 & H5 & H6).
  destruct (sn_readback bit Hb parse p d d' Hu) as (q2 & Hq2 & Hc). rewrite Hq' in Hq2. injection Hq2 as <-. done.
Qed.
Print Assumptions C58_sneakers_metadata_partial.

(** ** C15 *)
(** Lifetime is over at time [now]. *)
Definition over (now : N) (p : pack) : Prop := p_life p <> 0 /\ p_time p + p_life p < now.
Theorem C15_purge_exactly_expired : forall ops now id p,
  let s := mem_run ops in
  mem_meta_of id s = Some p -> p_time p + p_life p < 2^64 ->
  (** expired and not yet deleted: gone *)
  (has_constraint p Deleted = false -> over now p -> mem_get id (delete_expired now s) = None) /\
  (** anything else: bundle and metadata untouched *)
  (has_constraint p Deleted = true \/ ~ over now p ->
     mem_get id (delete_expired now s) = mem_get id s /\ mem_meta_of id (delete_expired now s) = Some p).
Proof.
  intros ops now id p s Hp Hb. destruct (delete_expired_spec now s id p (mem_inv_run ops) Hp Hb) as [H1 H2]. split.
  - intros Hd Ho. apply H1. by split.
  - intros Hn. apply H2. intros [Hd Ho]. destruct Hn as [Hn|Hn]; [congruence|done].
Qed.
Print Assumptions C15_purge_exactly_expired.
Theorem C15_purgeable_monotone : forall now now' p, over now p -> now <= now' -> over now' p.
Proof. unfold over. intros now now' p [H1 H2] H3. split; [done|lia]. Qed.
Print Assumptions C15_purgeable_monotone.
Theorem C15_lifetime_zero_kept : forall now p, p_life p = 0 -> ~ over now p.
Proof. intros now p H [H1 _]. done. Qed.
Print Assumptions C15_lifetime_zero_kept.
Example C15_case :
  let b := ex_b 1 60 in let c := ex_b 2 0 in
  let s := mem_run [Push 5 b; Push 5 c] in
  mem_get (bid b) (delete_expired 1061 s) = None /\ mem_get (bid b) (delete_expired 1060 s) = Some b /\
  mem_get (bid c) (delete_expired 1061 s) = Some c.
Proof. vm_compute. done. Qed.

(** ** C16 *)
Theorem C16_janitor_retries_all : forall ops accepting,
  let s := mem_run ops in
  (forall c, c ∈ accepting -> c = false) /\ to_forward accepting s = [] \/
  (exists c, c ∈ accepting /\ c = true) /\
  (forall p, p ∈ to_forward accepting s <->
     mem_meta_of (p_id p) s = Some p /\ has_constraint p ForwardPending = true /\ has_constraint p Deleted = false) /\
  NoDup (map p_id (to_forward accepting s)) /\
  StronglySorted (fun a b => p_time a <= p_time b) (to_forward accepting s).
Proof.
  intros ops acc s. destruct (existsb (fun b => b) acc) eqn:E.
  - right. destruct (to_forward_spec acc s (mem_inv_run ops) E) as (H1 & H2 & H3). split; [|done].
    apply existsb_exists in E as (c & Hc & ->). exists true. split; [|done]. by apply elem_of_list_In.
  - left. split; [|unfold to_forward; by rewrite E]. intros c Hc. destruct c; [|done].
    assert (existsb (fun b => b) acc = true); [|congruence]. apply existsb_exists. exists true. split; [|done]. by apply elem_of_list_In.
Qed.
Print Assumptions C16_janitor_retries_all.
Definition ex_t (t : N) : bundle := Bundle plain (Dtn "b" "x") (Dtn "a" "") DtnNone t 0 60 0 0 [].
Example C16_case :
  let f b := Update (add_constraint (pack_of 5 b) ForwardPending) in
  map p_time (to_forward [false; true]
    (mem_run [Push 5 (ex_t 9); Push 5 (ex_t 3); Push 5 (ex_t 7); f (ex_t 9); f (ex_t 3); Remove (bid (ex_t 3)); f (ex_t 7)]))
  = [7; 9].
Proof. vm_compute. reflexivity. Qed.

(** ** C57 *)
(** Two bundles are the same transmission unit exactly if they agree on
    source, creation timestamp and, for fragments, offset. *)
Definition same_unit (b1 b2 : bundle) : Prop :=
  b_src b1 = b_src b2 /\ b_time b1 = b_time b2 /\ b_seq b1 = b_seq b2 /\
  bf_fragment (b_flags b1) = bf_fragment (b_flags b2) /\
  (bf_fragment (b_flags b1) = true -> b_off b1 = b_off b2).
Definition C57_full : Prop := forall b1 b2,
  wf_eid (b_src b1) -> wf_eid (b_src b2) -> bid b1 = bid b2 -> same_unit b1 b2.
Theorem C57_ids_distinct_refuted : ~ C57_full.
Proof.
  intros H.
  set (b1 := Bundle plain DtnNone (Dtn "a" "x-1") DtnNone 2 3 0 0 0 []).
  set (b2 := Bundle (BFlags false true false false false false false) DtnNone (Dtn "a" "x") DtnNone 1 2 0 3 9 []).
  assert (Hw : wf_eid (Dtn "a" "")) by (cbn; done).
  destruct (H b1 b2 Hw Hw ltac:(vm_compute; reflexivity)) as [He _]. vm_compute in He. discriminate.
Qed.
Print Assumptions C57_ids_distinct_refuted.
(** Missing from the full claim: a fragment against a whole bundle. *)
Theorem C57_ids_distinct_partial : forall b1 b2,
  wf_eid (b_src b1) -> wf_eid (b_src b2) ->
  bf_fragment (b_flags b1) = bf_fragment (b_flags b2) ->
  bid b1 = bid b2 <-> same_unit b1 b2.
Proof.
  intros b1 b2 H1 H2 Hf. split.
  - intros H. destruct (bid_inj b1 b2 H1 H2 Hf H) as (Ha & Hb & Hc & Hd). done.
  - intros (Ha & Hb & Hc & _ & Hd). unfold bid. rewrite Ha, Hb, Hc, <- Hf. destruct (bf_fragment (b_flags b1)); [|done]. by rewrite Hd.
Qed.
Print Assumptions C57_ids_distinct_partial.
Example C57_case : wf_eid (Dtn "node1" "in/b-1") /\ bid (ex_b 1 60) <> bid (ex_b 2 60) /\
  bid (ex_b 1 60) = "dtn://a/-1000-1".
Proof. split; [cbn; repeat split; discriminate|]. split; vm_compute; [discriminate|reflexivity]. Qed.

(** ** C103 *)
(** The two stores answer every query alike. *)
Definition agree (d : disk) (s : mem) : Prop :=
  (forall id, sled_get id d = mem_get id s /\ sled_meta_of id d = mem_meta_of id s /\ sled_has id d = mem_has id s) /\
  (forall id, id ∈ sled_all_ids d <-> id ∈ mem_all_ids s) /\
  (forall id, id ∈ sled_forwarding d <-> id ∈ mem_forwarding s) /\
  (forall id, id ∈ sled_pending d <-> id ∈ mem_pending s).
Definition C103_full : Prop := forall ops, agree (sled_run (map Done ops)) (mem_run ops).
Theorem C103_stores_agree_refuted : ~ C103_full.
Proof.
  intros H. destruct (H [Push 5 (ex_b 1 60); Remove (bid (ex_b 1 60)); Push 6 (ex_b 1 60)]) as [Hg _].
  destruct (Hg (bid (ex_b 1 60))) as [Hg' _]. vm_compute in Hg'. discriminate.
Qed.
Print Assumptions C103_stores_agree_refuted.
(** ... but in histories in which no bundle is pushed again after its removal,
    and then they also accept the same pushes and updates. *)
Definition pushed_again (ops : list op) : Prop :=
  exists before now b after, ops = before ++ Push now b :: after /\
    (exists now' b', Push now' b' ∈ before /\ bid b' = bid b) /\ ~ exists b', holds before (bid b) b'.
Theorem C103_stores_agree_partial : forall ops, ~ pushed_again ops ->
  agree (sled_run (map Done ops)) (mem_run ops) /\
  (forall p, snd (sled_update p (sled_run (map Done ops))) = SOk <-> snd (mem_update p (mem_run ops)) = true) /\
  (forall before now b after, ops = before ++ Push now b :: after -> snd (sled_push now b (sled_run (map Done before))) = SOk).
Proof.
  assert (Hb : forall ops, ~ pushed_again ops ->
    d_bundles (sled_run (map Done ops)) = m_bundles (mem_run ops) /\ d_meta (sled_run (map Done ops)) = m_meta (mem_run ops) /\
    (forall before now b after, ops = before ++ Push now b :: after -> snd (sled_push now b (sled_run (map Done before))) = SOk)).
  { induction ops as [|o ops IH] using rev_ind; intros Hn; [split; [done|split; [done|]]; by intros []|].
    destruct IH as (Eb & Em & Hp).
    { intros (x & now & b & y & -> & H). apply Hn. exists x, now, b, (y ++ [o]). split; [by rewrite <- app_assoc|done]. }
    rewrite map_app. cbn [map]. unfold sled_run. rewrite fold_left_app. fold (sled_run (map Done ops)). cbn [fold_left sled_live].
    rewrite mem_run_snoc. set (d := sled_run (map Done ops)) in *. assert (Hd : disk_inv d) by apply run_inv.
    assert (Hi := mem_inv_run ops). 
    assert (Hnew : forall now b, o = Push now b -> d_bundles d !! bid b = None -> d_meta d !! bid b = None).
    { intros now b -> E. destruct (d_meta d !! bid b) as [p|] eqn:E2; [|done]. destruct Hn. exists ops, now, b, []. split; [done|].
      split.
      - rewrite Em in E2. destruct (mem_meta_pushed ops (bid b)) as (n' & b' & H); [eauto|]. eauto.
      - intros [b' Hh]. apply latest_holds in Hh. rewrite <- mem_get_latest in Hh. unfold mem_get in Hh. rewrite <- Eb in Hh. congruence. }
    assert (Hlast : forall before now b after, ops ++ [o] = before ++ Push now b :: after ->
      (before = ops /\ o = Push now b) \/ exists after', ops = before ++ Push now b :: after').
    { intros x n b y E. destruct y as [|o' y _] using rev_ind.
      - apply app_inj_tail in E as [-> ->]. by left.
      - replace (x ++ Push n b :: y ++ [o']) with ((x ++ Push n b :: y) ++ [o']) in E by (by rewrite <- app_assoc).
        apply app_inj_tail in E as [-> ->]. eauto. }
    split; [|split].
    - unfold sled_step. destruct o as [now b|p|i]; cbn [sled_op mem_step].
      + unfold sled_push, mem_push. cbn [m_bundles]. destruct (d_bundles d !! bid b) eqn:E; cbn; [by rewrite Eb|].
        rewrite (Hnew now b eq_refl E). cbn. by rewrite Eb.
      + unfold sled_update, mem_update. rewrite <- Em. destruct (d_meta d !! p_id p); cbn; done.
      + rewrite (proj1 (mem_remove_spec i _ Hi)). unfold sled_remove. cbn [m_bundles]. destruct (d_meta d !! i) as [p|] eqn:E.
        * rewrite tombstone_id, (di_key _ Hd _ _ E), E. cbn. by rewrite Eb.
        * cbn. rewrite <- Eb. rewrite delete_notin; [done|]. destruct (d_bundles d !! i) as [c|] eqn:E2; [|done].
          destruct (di_meta _ Hd _ _ E2). congruence.
    - unfold sled_step. destruct o as [now b|p|i]; cbn [sled_op mem_step].
      + unfold sled_push, mem_push. cbn [m_meta]. rewrite <- Eb. destruct (d_bundles d !! bid b) eqn:E; cbn; [done|].
        rewrite (Hnew now b eq_refl E). cbn. by rewrite Em.
      + unfold sled_update, mem_update. rewrite <- Em. destruct (d_meta d !! p_id p); cbn; [by rewrite Em|done].
      + rewrite (proj1 (mem_remove_spec i _ Hi)). unfold sled_remove. cbn [m_meta]. rewrite <- Em. destruct (d_meta d !! i) as [p|] eqn:E.
        * rewrite tombstone_id, (di_key _ Hd _ _ E), E. cbn. apply map_eq. intros j. destruct (decide (j = i)) as [->|Hne].
          { by rewrite lookup_insert, lookup_alter, E. } { by rewrite lookup_insert_ne, lookup_alter_ne. }
        * cbn. apply map_eq. intros j. destruct (decide (j = i)) as [->|Hne]; [by rewrite lookup_alter, E|by rewrite lookup_alter_ne].
    - intros x n b y E. apply Hlast in E as [[-> ->]|[y' E]]; [|by eapply Hp].
      change (fold_left sled_live (map Done ops) disk0) with d. unfold sled_push. destruct (d_bundles d !! bid b) eqn:E; [done|]. by rewrite (Hnew n b eq_refl E). }
  intros ops Hn. destruct (Hb ops Hn) as (Eb & Em & Hp). set (d := sled_run (map Done ops)) in *. set (s := mem_run ops) in *.
  split; [|split; [|exact Hp]].
  - split; [|split; [|split]].
    + intros id. unfold sled_get, mem_get, sled_meta_of, mem_meta_of, sled_has, mem_has. by rewrite Eb, Em.
    + intros id. unfold sled_all_ids, mem_all_ids. by rewrite Eb.
    + intros id. unfold sled_forwarding, mem_forwarding, sled_filter, mem_filter, sled_packs, mem_packs. by rewrite Em.
    + intros id. unfold sled_pending, mem_pending, sled_packs, mem_packs. by rewrite Em.
  - intros p. unfold sled_update, mem_update. rewrite Em. by destruct (m_meta s !! p_id p).
Qed.
Print Assumptions C103_stores_agree_partial.
Example C103_case :
  let ops := [Push 5 (ex_b 1 60); Push 6 (ex_b 2 60); Remove (bid (ex_b 1 60)); Push 7 (ex_b 2 60)] in
  ~ pushed_again ops /\ sled_get (bid (ex_b 2 60)) (sled_run (map Done ops)) = Some (ex_b 2 60) /\
  sled_get (bid (ex_b 1 60)) (sled_run (map Done ops)) = None.
Proof.
  cbv zeta. split; [|vm_compute; done]. intros (x & now & b & y & E & (n' & b' & Hin & Hb) & Hh).
  destruct x as [|o1 x]; [by apply elem_of_nil in Hin|]. injection E as <- E.
  destruct x as [|o2 x]; cbn [app] in E.
  { injection E as <- <- _. apply elem_of_list_singleton in Hin. injection Hin as -> ->. vm_compute in Hb. discriminate. }
  injection E as <- E. destruct x as [|o3 x]; cbn [app] in E; [discriminate|]. injection E as <- E.
  destruct x as [|o4 x]; cbn [app] in E; [|injection E as _ E; by destruct x].
  injection E as <- <- _. apply Hh. exists (ex_b 2 60). apply latest_holds. vm_compute. done.
Qed.
