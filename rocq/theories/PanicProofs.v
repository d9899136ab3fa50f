(** When a task dies (for C153). *)
From stdpp Require Import prelude strings pretty gmap sorting.
From Coq Require Import NArith Lia ZifyBool ZifyN ZifyNat.
From Verif Require Import Core StoreMem StoreSled Peers Routing Pipeline PipelineBase PipelineProofs PipelineInv PipelineRun Restart NodeDisk.
Open Scope N_scope.

(** a Previous Node block holds an endpoint *)
Definition prev_ok (b : bundle) : Prop :=
  forall k, block_by_type PREVIOUS_NODE_BLOCK b = Some k -> exists e, k_data k = CPrev e.
Lemma find_update t t' d l : t <> t' -> List.find (fun k => k_type k =? t) (update_first t' d l) = List.find (fun k => k_type k =? t) l.
Proof.
  intros Hne. induction l as [|k l IH]; cbn; [done|]. destruct (k_type k =? t') eqn:E.
  - cbn. replace (k_type k =? t) with false by lia. done.
  - cbn. by rewrite IH.
Qed.

Section panic.
Context (host : eid) (gen_reports parallel : bool) (parse_record : list N -> option arecord)
        (lifetime_exceeded : N -> bundle -> bool).
Definition fine (b : bundle) : Prop := prev_ok b /\ (gen_reports = true -> b_rpt b <> DtnNone).
Notation ids := (string -> Prop).
Definition grows (K K' : ids) : Prop := forall x, K x -> K' x.
(** answers that can be given when the store has metadata for [K] *)
Definition okay (K : ids) (o : act) : resp o -> Prop :=
  match o return resp o -> Prop with
  | SGet id => fun r => match r with None => True | Some b => fine b /\ bid b = id /\ K id end
  | SMeta id => fun r => match r with None => ~ K id | Some p => p_id p = id /\ K id end
  | SHas id => fun r => r = true -> K id
  | SPacks => fun r => Forall (fun p => K (p_id p)) r
  | SForwarding => fun r => Forall K r
  | NewReport b _ _ => fun r => r = None -> b_rpt b = DtnNone
  | _ => fun _ => True
  end.
(** what must be there when it is asked for *)
Definition needs (K : ids) (o : act) : Prop :=
  match o with
  | SMeta id | SRemove id => K id
  | SGet _ => parallel = false
  | _ => True
  end.
(** the transfers do not use the store *)
Fixpoint quiet (c : cprog) : Prop :=
  match c with CDone _ => True | CAct o k => on_store o = false /\ forall r, quiet (k r) end.
(** the program asks only for what is there, and does not panic *)
Fixpoint alive {A} (Q : ids -> A -> Prop) (K : ids) (p : prog A) : Prop :=
  match p with
  | Ret a => forall K', grows K K' -> Q K' a
  | Panic => False
  | Act o k => forall K' r, grows K K' -> needs K' o /\ (okay K' o r -> alive Q K' (k r))
  | Spawn _ k => alive Q K k
  | Par cs k => Forall quiet cs /\ forall K' bs, grows K K' -> alive Q K' (k bs)
  end.
Lemma grows_refl K : grows K K.
Proof. by intros x. Qed.
Lemma grows_trans K1 K2 K3 : grows K1 K2 -> grows K2 K3 -> grows K1 K3.
Proof. intros H1 H2 x Hx. auto. Qed.
Lemma alive_mono {A} (Q : ids -> A -> Prop) K K' p : alive Q K p -> grows K K' -> alive Q K' p.
Proof.
  intros H Hg. induction p as [a| |o k IH|q k IH|cs k IH]; cbn in *; eauto using grows_trans.
  destruct H as [Hc H]. split; [done|]. eauto using grows_trans.
Qed.
Lemma alive_weaken {A} (Q Q' : ids -> A -> Prop) K p : (forall K' a, grows K K' -> Q K' a -> Q' K' a) -> alive Q K p -> alive Q' K p.
Proof.
  revert K. induction p as [a| |o k IH|q k IH|cs k IH]; intros K HQ H; cbn in *.
  - intros K' Hg. auto.
  - done.
  - intros K' r Hg. destruct (H K' r Hg) as [Hn Hk]. split; [done|]. intros Ho. eapply IH; [|by apply Hk]. eauto using grows_trans.
  - by apply IH.
  - destruct H as [Hc H]. split; [done|]. intros K' bs Hg. eapply IH; [|by apply H]. eauto using grows_trans.
Qed.
Lemma alive_bind {A B} (Q : ids -> B -> Prop) K (m : prog A) (f : A -> prog B) :
  alive (fun K a => alive Q K (f a)) K m -> alive Q K (bind m f).
Proof.
  revert K. induction m as [a| |o k IH|q k IH|cs k IH]; intros K H; cbn in *.
  - apply H, grows_refl.
  - done.
  - intros K' r Hg. destruct (H K' r Hg) as [Hn Hk]. split; [done|]. intros Ho. by apply IH, Hk.
  - by apply IH.
  - destruct H as [Hc H]. split; [done|]. intros K' bs Hg. by apply IH, H.
Qed.
Lemma alive_call (Q : forall K (o : act), resp o -> Prop) K o :
  (forall K', grows K K' -> needs K' o) ->
  (forall K' r K'', grows K K' -> okay K' o r -> grows K' K'' -> Q K'' o r) -> alive (fun K r => Q K o r) K (call o).
Proof. intros Hn HQ K' r Hg. split; [auto|]. intros Ho K'' Hg'. eauto. Qed.
Notation triv := (fun _ _ => True).
Lemma alive_act {A} (Q : ids -> A -> Prop) K o (f : resp o -> prog A) :
  (forall K', grows K K' -> needs K' o) ->
  (forall K' r, grows K K' -> okay K' o r -> alive Q K' (f r)) -> alive Q K (bind (call o) f).
Proof. intros Hn HQ. cbn. intros K' r Hg. split; [auto|]. intros Ho. by apply HQ. Qed.
Lemma alive_then {A B} (Q : ids -> B -> Prop) K (m : prog A) (f : A -> prog B) :
  alive triv K m -> (forall K' a, grows K K' -> alive Q K' (f a)) -> alive Q K (bind m f).
Proof. intros Hm Hf. apply alive_bind. eapply alive_weaken; [|done]. intros K' a Hg _. by apply Hf. Qed.
Lemma ret_triv {A} K (a : A) : alive triv K (Ret a).
Proof. by intros K'. Qed.
Lemma call_triv K o : (forall K', grows K K' -> needs K' o) -> alive triv K (call o).
Proof. intros Hn K' r Hg. split; [auto|]. intros _. by intros K''. Qed.

Notation sync := (sync).
Lemma alive_sync (K : string -> Prop) p : (has_constraints (p_cons p) = false -> K (p_id p)) -> alive triv K (sync p).
Proof.
  intros H. unfold Pipeline.sync. destruct (has_constraints (p_cons p)); apply call_triv; intros K' Hg; [done|]. cbn. by apply Hg, H.
Qed.
Context (seq : parallel = false).
Lemma alive_report (K : string -> Prop) p st rs : gen_reports = true -> alive triv K (send_status_report p st rs).
Proof.
  intros Hgen. unfold send_status_report. destruct (_ || _); [apply ret_triv|].
  apply alive_act; [done|]. intros K1 [b|] _ Hb; [|apply ret_triv]. destruct Hb as ((_ & Hf) & _ & _).
  apply alive_act; [done|]. intros K2 [] _ _; [apply ret_triv|].
  apply alive_act; [done|]. intros K3 [out|] _ Ho; [|cbn in Ho; by destruct (Hf Hgen (Ho eq_refl))].
  apply alive_act; [done|]. intros K4 [] _ _; [|apply ret_triv].
  apply alive_act; [done|]. intros K5 now _ _. apply alive_then; [|intros; apply ret_triv]. by apply alive_sync.
Qed.
Lemma alive_delete (K : string -> Prop) p rs : alive triv K (delete_bundle gen_reports p rs).
Proof.
  unfold delete_bundle. apply alive_act; [done|]. intros K1 [b|] _ Hb; [|apply ret_triv]. destruct Hb as (_ & _ & Hk).
  apply alive_then.
  - destruct (_ && gen_reports) eqn:E; [|apply ret_triv]. apply andb_true_iff in E as [_ E]. by apply alive_report.
  - intros K2 a Hg. apply alive_sync. intros _. cbn. by apply Hg.
Qed.
Lemma alive_delete_fresh (K : string -> Prop) b rs : alive triv K (delete_fresh gen_reports b rs).
Proof. unfold delete_fresh. apply alive_act; [done|]. intros K1 now _ _. apply alive_delete. Qed.
Lemma alive_items l i ref (K : string -> Prop) : K ref -> alive triv K (inspect_items l i ref).
Proof.
  revert i K. induction l as [|x l IH]; intros i K H; cbn [inspect_items]; [apply ret_triv|]. destruct (_ =? _)%nat; [|by apply IH].
  apply alive_act; [intros K' Hg; by apply Hg|]. intros K1 r Hg _. apply IH. by apply Hg.
Qed.
Lemma alive_record (K : string -> Prop) b : alive triv K (record_valid parse_record b).
Proof.
  unfold record_valid. destruct (bf_admin _); [|apply ret_triv]. destruct (block_by_type _ _) as [[? ? ? []]|]; try apply ret_triv.
  destruct (parse_record _) as [ar|]; [|apply ret_triv]. apply alive_then; [|intros; apply ret_triv].
  unfold inspect_status_report. destruct ar as [[|x l] ref|]; try apply ret_triv.
  apply alive_act; [done|]. intros K1 [] _ Hr; [|apply ret_triv]. cbn in Hr. destruct (_ =? _)%nat; [|apply ret_triv]. by apply alive_items, Hr.
Qed.
Lemma alive_lifetime (K : string -> Prop) b : alive triv K (handle_lifetime gen_reports b).
Proof.
  unfold handle_lifetime. apply alive_act; [done|]. intros K1 [] _ _; [|apply ret_triv].
  apply alive_then; [apply alive_delete_fresh|intros; apply ret_triv].
Qed.
Lemma alive_hop (K : string -> Prop) b : prev_ok b -> K (bid b) ->
  alive (fun K o => match o with Some b => prev_ok b /\ K (bid b) | None => True end) K (handle_hop_count gen_reports b).
Proof.
  intros Hp Hk. unfold handle_hop_count. destruct (block_by_type HOP_COUNT_BLOCK b) as [[? ? ? []]|]; try (intros K' Hg; split; [done|by apply Hg]).
  cbv zeta. destruct (_ <? _).
  - apply alive_then; [apply alive_delete_fresh|]. intros K' a Hg. by intros K''.
  - intros K' Hg. split; [|by apply Hg]. intros k. unfold block_by_type. cbn [b_blocks with_blocks]. rewrite find_update by done. apply Hp.
Qed.
Lemma alive_prev (K : string -> Prop) b : prev_ok b -> K (bid b) -> alive (fun K b => K (bid b)) K (handle_previous_node host b).
Proof.
  intros Hp Hk. unfold handle_previous_node. destruct (block_by_type _ b) as [k|] eqn:E; [|intros K' Hg; by apply Hg].
  destruct (Hp _ E) as [e He]. destruct k as [? ? ? d]. cbn in He. subst d. intros K' Hg. by apply Hg.
Qed.
Lemma alive_age (K : string -> Prop) b : K (bid b) -> alive triv K (handle_age gen_reports b).
Proof.
  intros Hk. unfold handle_age. destruct (block_by_type _ b) as [[? ? ? []]|]; try apply ret_triv.
  all: apply alive_act; [intros K' Hg; by apply Hg|]; intros K1 r Hg Hr; try apply ret_triv.
  destruct r; [|apply ret_triv]. apply alive_act; [done|]. intros K2 now Hg2 _. cbv zeta. destruct (_ =? 0); [apply ret_triv|].
  destruct (_ <=? _); [|apply ret_triv]. apply alive_then; [apply alive_delete_fresh|intros; apply ret_triv].
Qed.
Lemma add_has p c : has_constraints (p_cons (add_constraint p c)) = true.
Proof. destruct p as [? ? ? ? ? ? ? [[] [] [] [] [] []]], c; reflexivity. Qed.
Lemma forwarding_has p : has_constraints (p_cons (forwarding p)) = true.
Proof. destruct p as [? ? ? ? ? ? ? [[] [] [] [] [] []]]; reflexivity. Qed.
Lemma quiet_send id b s : quiet (send_one id b s).
Proof.
  split; [done|]. intros []; (split; [done|]); intros _; destruct (eid_node _); try done; (split; [done|]); intros _; try done.
  split; [done|]. intros [x|]; [|done]. split; [done|]. by intros _.
Qed.
Lemma alive_forward (K : string -> Prop) p : K (p_id p) -> alive triv K (forward host gen_reports parse_record p).
Proof.
  intros Hk. unfold forward. apply alive_then; [apply alive_sync; by rewrite forwarding_has|]. intros K1 [] Hg1; [|apply ret_triv].
  apply alive_act; [done|]. intros K2 ans Hg2 _. destruct ans as [[[|s nodes] del]|]; [|..|apply ret_triv].
  { destruct del; [|apply ret_triv]. apply call_triv. intros K' Hg. by apply Hg, Hg2, Hg1. }
  apply alive_act; [done|]. intros K3 [b|] Hg3 Hb; [|apply ret_triv]. destruct Hb as ((Hp & Hf) & Eb & Hkb).
  unfold forward_copy. apply alive_then; [apply alive_lifetime|]. intros K4 [] Hg4; [|apply ret_triv].
  apply alive_bind. eapply alive_weaken; [|apply alive_hop; [done|rewrite Eb; by apply Hg4]].
  intros K5 [b5|] Hg5 H5; [|apply ret_triv]. destruct H5 as [Hp5 Hk5].
  apply alive_bind. eapply alive_weaken; [|by apply alive_prev]. intros K6 b6 Hg6 Hk6.
  apply alive_then; [by apply alive_age|]. intros K7 [b7|] Hg7; [|apply ret_triv].
  cbn [alive]. split; [apply Forall_fmap, Forall_true; intros; apply quiet_send|]. intros K8 bs Hg8. unfold after_transfers. destruct (existsb _ bs); [|apply ret_triv].
  apply alive_then.
  { destruct (_ && gen_reports) eqn:E; [|apply ret_triv]. apply andb_true_iff in E as [_ E]. by apply alive_report. }
  intros K9 a Hg9. destruct del.
  - apply call_triv. intros K' Hg. cbn. auto 20.
  - destruct (bf_admin _); [|apply ret_triv]. apply alive_then; [apply alive_record|]. intros K10 r Hg10.
    unfold contraindicated. apply alive_sync. by rewrite add_has.
Qed.
End panic.
Section steps.
Context (gen_reports parallel : bool).
Notation alive := (alive gen_reports parallel).
Lemma alive_step {A} (Q : (string -> Prop) -> A -> Prop) K K' p l p' : alive Q K p -> grows K K' -> pstep p l p' ->
  match l with
  | LAct o r => (on_store o = false \/ needs parallel K' o) /\ (okay gen_reports K' o r -> alive Q K' p')
  | _ => alive Q K' p'
  end.
Proof.
  intros Ha Hg Hs. destruct Hs as [o k r|q k|cs k i c l c' Hi Hc|cs k bs Hd]; cbn in Ha.
  - destruct (Ha K' r Hg) as [Hn Hk]. auto.
  - by eapply alive_mono.
  - destruct Ha as [Hq Ha]. destruct Hc as [o f r]. assert (Hqi : quiet (CAct o f)) by (by eapply Forall_lookup_1). destruct Hqi as [Ho Hf].
    split; [by left|]. intros _. cbn. split; [by apply Forall_insert|]. intros K2 bs Hg2. apply Ha. eauto using grows_trans.
  - destruct Ha as [_ Ha]. by apply Ha.
Qed.
End steps.

Section janitor.
Context (host : eid) (gen_reports parallel : bool) (parse_record : list N -> option arecord)
        (lifetime_exceeded : N -> bundle -> bool).
Notation alive := (alive gen_reports parallel).
Notation triv := (fun _ _ => True).
Lemma alive_expired (K : string -> Prop) l : Forall (fun p => K (p_id p)) l -> alive triv K (remove_expired l).
Proof.
  revert K. induction l as [|p l IH]; intros K Hl; cbn [remove_expired]; [apply ret_triv|]. apply Forall_cons in Hl as [Hp Hl].
  apply alive_act; [done|]. intros K1 now Hg1 _. apply alive_then.
  - destruct (has_expired now p); [|apply ret_triv]. apply alive_act; [intros K' Hg; by apply Hg, Hg1|]. intros. apply ret_triv.
  - intros K2 a Hg2. apply IH. eapply Forall_impl; [done|]. intros q Hq. by apply Hg2, Hg1.
Qed.
Lemma alive_load (K : string -> Prop) ids : Forall K ids -> alive (fun K ps => Forall (fun p => K (p_id p)) ps) K (load_packs ids).
Proof.
  revert K. induction ids as [|id ids IH]; intros K Hl; cbn [load_packs]; [intros K' _; constructor|]. apply Forall_cons in Hl as [Hp Hl].
  apply alive_act; [intros K' Hg; by apply Hg|]. intros K1 om Hg1 Ho. apply alive_bind.
  eapply alive_weaken; [|apply IH; eapply Forall_impl; [done|]; auto]. intros K2 ps Hg2 Hps K3 Hg3.
  assert (Hps' : Forall (fun p => K3 (p_id p)) ps) by (eapply Forall_impl; [exact Hps|]; intros q Hq; by apply Hg3).
  destruct om as [p|]; [|done]. cbn in Ho. destruct Ho as [E Hk]. destruct (has_constraint p Deleted); [done|]. constructor; [rewrite E; auto|done].
Qed.
Lemma alive_all (K : string -> Prop) ps : Forall (fun p => K (p_id p)) ps -> alive triv K (forward_all host gen_reports parallel parse_record ps).
Proof.
  revert K. induction ps as [|p ps IH]; intros K Hl; cbn [forward_all]; [apply ret_triv|]. apply Forall_cons in Hl as [Hp Hl].
  destruct (bool_decide (parallel = true)) eqn:E.
  - apply bool_decide_eq_true in E. assert (E' : forall A (a b : A), (if parallel then a else b) = a) by (intros; by rewrite E). rewrite E'. cbn. by apply IH.
  - apply bool_decide_eq_false in E. assert (E' : parallel = false) by (by destruct parallel). assert (E'' : forall A (a b : A), (if parallel then a else b) = b) by (intros; by rewrite E'). rewrite E''.
    apply alive_then; [by apply alive_forward|]. intros K' a Hg. apply IH. eapply Forall_impl; [done|]. auto.
Qed.
Lemma alive_janitor (K : string -> Prop) : alive triv K (process_bundles host gen_reports parallel parse_record).
Proof.
  unfold process_bundles. apply alive_act; [done|]. intros K1 ps _ Hps. apply alive_then.
  { apply alive_expired. apply Forall_forall. intros p [_ Hp]%elem_of_list_filter. cbn in Hps. rewrite Forall_forall in Hps. auto. }
  intros K2 [] Hg2. apply alive_act; [done|]. intros K3 [] _ _; [|apply ret_triv].
  apply alive_act; [done|]. intros K4 ids _ Hids. apply alive_bind. eapply alive_weaken; [|by apply alive_load].
  intros K5 qs Hg5 Hqs. apply alive_all. rewrite Forall_forall in *. intros q Hq. apply Hqs.
  rewrite <- (merge_sort_Permutation by_time qs). done.
Qed.
End janitor.

Section runs.
Context (host : eid) (gen_reports parallel : bool) (parse_record : list N -> option arecord)
        (lifetime_exceeded : N -> bundle -> bool).
Notation run := (run host gen_reports parallel parse_record lifetime_exceeded).
Notation mstep := (mstep host gen_reports parallel parse_record lifetime_exceeded).
Notation drun := (drun host gen_reports parallel parse_record lifetime_exceeded).
Notation access := (access host lifetime_exceeded).
Notation triv := (fun _ _ => True).
Definition known_ids (s : mem) (id : string) : Prop := is_Some (m_meta s !! id).
Definition proper (s : mem) : Prop :=
  keys_ok s /\ (forall id b, m_bundles s !! id = Some b -> bid b = id) /\ (forall id, is_Some (m_bundles s !! id) -> is_Some (m_meta s !! id)).
Lemma run_proper tr m : run tr m -> proper (n_store (m_node m)).
Proof.
  intros Hr. assert (Hi := run_inv _ _ _ _ _ _ _ Hr). split; [by eapply run_keys|]. split; [|apply (iv_both _ _ Hi)].
  intros id b Hb. apply (iv_bundle _ _ Hi _ _ Hb).
Qed.
(** answers of the store *)
Lemma access_okay n o r n' : proper (n_store n) -> access n o r n' ->
  (forall id b (E : o = SGet id), eq_rect o resp r _ E = Some b -> fine gen_reports b) -> okay gen_reports (known_ids (n_store n)) o r.
Proof.
  intros (Hk & Hb & Hm) Ha Hf. destruct o; try done; cbn in Ha.
  - destruct Ha as [-> _]. cbn. unfold mem_has, known_ids. rewrite bool_decide_eq_true. auto.
  - destruct Ha as [-> _]. cbn. specialize (Hf id). unfold mem_get in *. destruct (m_bundles (n_store n) !! id) as [b|] eqn:E; [|done].
    split; [by apply (Hf b eq_refl)|]. split; [by apply Hb|]. unfold known_ids. eauto.
  - destruct Ha as [-> _]. cbn. unfold mem_meta_of, known_ids. destruct (m_meta (n_store n) !! id) as [p|] eqn:E; [|by intros [? ?]].
    split; [by apply Hk|eauto].
  - destruct Ha as [-> _]. cbn. apply Forall_fmap, Forall_forall. intros [id p] Hp%elem_of_map_to_list. cbn. unfold known_ids. rewrite (Hk _ _ Hp). eauto.
  - destruct Ha as [-> _]. cbn. apply Forall_fmap, Forall_forall. intros p [_ Hp]%elem_of_list_filter. apply elem_of_list_fmap in Hp as ([id q] & -> & Hp%elem_of_map_to_list).
    cbn. unfold known_ids. rewrite (Hk _ _ Hp). eauto.
  - destruct Ha as [_ Ha]. cbn. by intros ->.
Qed.
Lemma push_known now b s : grows (known_ids s) (known_ids (mem_push now b s)).
Proof. intros id H. unfold known_ids, mem_push in *. cbn. destruct (m_bundles s !! bid b); [done|]. rewrite lookup_insert_is_Some'. auto. Qed.
Lemma update_known p s : grows (known_ids s) (known_ids (fst (mem_update p s))).
Proof. intros id H. unfold known_ids, mem_update in *. destruct (m_meta s !! p_id p); [|done]. cbn. rewrite lookup_insert_is_Some'. auto. Qed.
Lemma remove_known i s : grows (known_ids s) (known_ids (fst (mem_remove i s))).
Proof.
  intros id H. unfold mem_remove. destruct (m_meta s !! i) as [p|]; [|done]. assert (Hu := update_known (tombstone p) s id H).
  destruct (mem_update (tombstone p) s) as [s' []]; [|done]. cbn in Hu. by destruct (m_bundles s' !! i).
Qed.
Lemma step_known m e m' : mstep m e m' -> grows (known_ids (n_store (m_node m))) (known_ids (n_store (m_node m'))).
Proof.
  intros Hs id H. destruct Hs as [| | | | | |m i k p o r p' n' _ _ Ha| |]; try done; [by case_match|].
  cbn [m_node]. destruct (access_store _ _ _ _ _ _ Ha) as [->|(id' & _ & ->)]; [|done].
  destruct o; cbn [store_after]; try done.
  - destruct r; [by apply push_known|done].
  - destruct r as [[]|]; [by apply push_known|done..].
  - by apply remove_known.
  - destruct r; [by apply update_known|done].
Qed.
(** ** A task of the janitor in memory *)
Lemma janitor_alive tr m i k p : run tr m ->
  (parallel = false -> forall id b, EStep i (LAct (SGet id) (Some b)) ∈ tr -> fine gen_reports b) ->
  m_tasks m !! i = Some (k, p) -> k = KJanitor -> alive gen_reports parallel triv (known_ids (n_store (m_node m))) p.
Proof.
  intros Hr. revert k p. induction Hr as [m (_ & E & _)|tr m e m' Hr IH Hs]; intros k p Hf Hi ->; [by rewrite E in Hi|].
  assert (Hf' : parallel = false -> forall id b, EStep i (LAct (SGet id) (Some b)) ∈ tr -> fine gen_reports b).
  { intros E id b H. apply (Hf E id). apply elem_of_app. by left. }
  specialize (IH KJanitor). assert (Hold : forall q, m_tasks m !! i = Some (KJanitor, q) -> alive gen_reports parallel triv (known_ids (n_store (m_node m))) q) by auto.
  clear IH Hf'. assert (Hg := step_known _ _ _ Hs). assert (Hpr := run_proper _ _ Hr).
  destruct Hs as [m k Hst|m ep|m ep|m ep on|m ps|m u d H1 H2|m j k q o r q' n' Hj Hp Ha|m j k q z q' Hj Hp|m j k q q' Hj Hp]; cbn [m_tasks with_node] in Hi.
  - apply lookup_app_Some in Hi as [Hi|[_ Hi]]; [eapply alive_mono; [by apply Hold|done]|].
    destruct (i - length (m_tasks m))%nat; [|done]. cbn in Hi. injection Hi as -> <-. apply alive_janitor.
  - eapply alive_mono; [apply Hold; by case_match|done].
  - eapply alive_mono; [by apply Hold|done].
  - eapply alive_mono; [by apply Hold|done].
  - eapply alive_mono; [by apply Hold|done].
  - eapply alive_mono; [by apply Hold|done].
  - destruct (decide (i = j)) as [<-|Hne]; [|rewrite list_lookup_insert_ne in Hi by done; eapply alive_mono; [by apply Hold|done]].
    rewrite list_lookup_insert in Hi by (by eapply lookup_lt_Some). injection Hi as -> <-.
    assert (Hq := alive_step gen_reports parallel triv _ _ _ _ _ (Hold _ Hj) (grows_refl _) Hp). destruct Hq as [Hn Hq].
    eapply alive_mono; [apply Hq|done]. eapply access_okay; [done|done|].
    intros id b E Eb. subst o. cbn in Eb. subst r. destruct Hn as [Hn|Hn]; [done|]. apply (Hf Hn id). apply elem_of_app. right. left.
  - apply lookup_app_Some in Hi as [Hi|[_ Hi]].
    + destruct (decide (i = j)) as [<-|Hne]; [|rewrite list_lookup_insert_ne in Hi by done; eapply alive_mono; [by apply Hold|done]].
      rewrite list_lookup_insert in Hi by (by eapply lookup_lt_Some). injection Hi as -> <-.
      eapply alive_mono; [|done]. exact (alive_step gen_reports parallel triv _ _ _ _ _ (Hold _ Hj) (grows_refl _) Hp).
    + destruct (i - _)%nat; done.
  - destruct (decide (i = j)) as [<-|Hne]; [|rewrite list_lookup_insert_ne in Hi by done; eapply alive_mono; [by apply Hold|done]].
    rewrite list_lookup_insert in Hi by (by eapply lookup_lt_Some). injection Hi as -> <-.
    eapply alive_mono; [|done]. exact (alive_step gen_reports parallel triv _ _ _ _ _ (Hold _ Hj) (grows_refl _) Hp).
Qed.
(** ** ... and on disk *)
Definition known_disk (d : disk) (id : string) : Prop := is_Some (d_meta d !! id).
Lemma janitor_alive_disk tr y i k p : drun tr y ->
  (parallel = false -> forall id b, EStep i (LAct (SGet id) (Some b)) ∈ tr -> fine gen_reports b) ->
  (parallel = false -> forall id, EStep i (LAct (SGet id) None) ∉ tr) ->
  m_tasks y.2 !! i = Some (k, p) -> k = KJanitor -> alive gen_reports parallel triv (known_disk y.1) p.
Proof.
  intros Hr. revert k p. induction Hr as [x (_ & E & _)|tr y e y' Hr IH Hs]; intros k p Hf Hno Hi ->; [cbn in Hi; by rewrite E in Hi|].
  assert (Hf' : parallel = false -> forall id b, EStep i (LAct (SGet id) (Some b)) ∈ tr -> fine gen_reports b).
  { intros E id b H. apply (Hf E id). apply elem_of_app. by left. }
  assert (Hno' : parallel = false -> forall id, EStep i (LAct (SGet id) None) ∉ tr).
  { intros E id H. apply (Hno E id). apply elem_of_app. by left. }
  assert (Hold : forall q, m_tasks y.2 !! i = Some (KJanitor, q) -> alive gen_reports parallel triv (known_disk y.1) q) by (intros q Hq; by apply (IH KJanitor)).
  clear IH Hf' Hno'. assert (Hg : grows (known_disk y.1) (known_disk y'.1)) by (intros id; by eapply dstep_meta).
  destruct (drun_like _ _ _ _ _ _ _ Hr) as (m & Hm & En & _). assert (Hpr := run_proper _ _ Hm). rewrite En in Hpr. cbn in Hpr.
  destruct Hs as [d x j k q o r q' d' Hj Hp Ha|d x e x' Hse Hs]; cbn [fst snd m_tasks] in *.
  - destruct (decide (i = j)) as [<-|Hne]; [|rewrite list_lookup_insert_ne in Hi by done; eapply alive_mono; [by apply Hold|done]].
    rewrite list_lookup_insert in Hi by (by eapply lookup_lt_Some). injection Hi as -> <-.
    assert (Hq := alive_step gen_reports parallel triv _ _ _ _ _ (Hold _ Hj) (grows_refl _) Hp). destruct Hq as [Hn Hq].
    assert (Ho : on_store o = true) by (by destruct o).
    destruct Hn as [Hn|Hn]; [congruence|].
    assert (Hd : deadly o r d = false).
    { destruct o; try done; cbn in Ha, Hn |- *.
      - apply bool_decide_eq_false. destruct Hn as [q0 Hq0]. unfold sled_remove. rewrite Hq0. by destruct (d_meta d !! p_id (tombstone q0)).
      - apply bool_decide_eq_false. intros ->. apply (Hno Hn id). apply elem_of_app. right. left.
      - apply bool_decide_eq_false. destruct Ha as [-> _]. destruct Hn as [q0 Hq0]. unfold sled_meta_of. by rewrite Hq0. }
    rewrite Hd. eapply alive_mono; [apply Hq|done].
    apply (disk_access_abs host lifetime_exceeded (m_node x) d o r d' (proj1 Hpr)) in Ha.
    apply (access_okay (set_store (m_node x) (abs d)) o r _ Hpr Ha).
    intros id b E Eb. subst o. cbn in Eb. subst r. apply (Hf Hn id). apply elem_of_app. right. left.
  - destruct Hs as [x k Hst|x ep|x ep|x ep on|x ps|x u d0 H1 H2|x j k q o r q' n' Hj Hp Ha|x j k q z q' Hj Hp|x j k q q' Hj Hp]; cbn [m_tasks with_node] in Hi.
    + apply lookup_app_Some in Hi as [Hi|[_ Hi]]; [by apply Hold|].
      destruct (i - length (m_tasks x))%nat; [|done]. cbn in Hi. injection Hi as -> <-. apply alive_janitor.
    + apply Hold. by case_match.
    + by apply Hold.
    + by apply Hold.
    + by apply Hold.
    + by apply Hold.
    + destruct (decide (i = j)) as [<-|Hne]; [|rewrite list_lookup_insert_ne in Hi by done; by apply Hold].
      rewrite list_lookup_insert in Hi by (by eapply lookup_lt_Some). injection Hi as -> <-.
      assert (Hq := alive_step gen_reports parallel triv _ _ _ _ _ (Hold _ Hj) (grows_refl _) Hp). destruct Hq as [_ Hq].
      apply Hq. destruct o; try done. cbn in Ha. destruct Ha as [_ Ha]. cbn. by intros ->.
    + apply lookup_app_Some in Hi as [Hi|[_ Hi]]; [|destruct (i - _)%nat; done].
      destruct (decide (i = j)) as [<-|Hne]; [|rewrite list_lookup_insert_ne in Hi by done; by apply Hold].
      rewrite list_lookup_insert in Hi by (by eapply lookup_lt_Some). injection Hi as -> <-.
      exact (alive_step gen_reports parallel triv _ _ _ _ _ (Hold _ Hj) (grows_refl _) Hp).
    + destruct (decide (i = j)) as [<-|Hne]; [|rewrite list_lookup_insert_ne in Hi by done; by apply Hold].
      rewrite list_lookup_insert in Hi by (by eapply lookup_lt_Some). injection Hi as -> <-.
      exact (alive_step gen_reports parallel triv _ _ _ _ _ (Hold _ Hj) (grows_refl _) Hp).
Qed.
End runs.
