(** The node on the store on disk: the tasks of Pipeline.v with the operations of
    core/store/sled.rs (for C151-C153). *)
From stdpp Require Import prelude strings pretty gmap sorting.
From Coq Require Import NArith Lia.
From Verif Require Import Core StoreMem StoreSled Peers Routing Pipeline PipelineBase PipelineInv PipelineRun Restart.
Open Scope N_scope.

Global Instance sres_eq_dec : EqDecision sres.
Proof. solve_decision. Defined.

(** lib.rs:164-232 on this store: what the operations of Pipeline.v do to the
    files and what they answer; like there they may fail without effect.  The
    other accesses do not touch the store. *)
Definition disk_access (now : N) (d : disk) (o : act) : resp o -> disk -> Prop :=
  match o return resp o -> disk -> Prop with
  | SPush b => fun r d' =>
      (r = bool_decide (snd (sled_push now b d) = SOk) /\ d' = apply_all d (fst (sled_push now b d))) \/ (r = false /\ d' = d)
  | SAdd b => fun r d' =>
      (r = snd (sled_add_if_unknown now b d) /\ d' = apply_all d (fst (sled_add_if_unknown now b d))) \/
      (r = None /\ sled_has (bid b) d = false /\ d' = d)
  | SRemove id => fun r d' =>
      (r = bool_decide (snd (sled_remove id d) = SOk) /\ d' = apply_all d (fst (sled_remove id d))) \/ (r = false /\ d' = d)
  | SUpdate p => fun r d' =>
      (r = bool_decide (snd (sled_update p d) = SOk) /\ d' = apply_all d (fst (sled_update p d))) \/ (r = false /\ d' = d)
  | SHas id => fun r d' => r = sled_has id d /\ d' = d
  | SGet id => fun r d' => r = sled_get id d /\ d' = d
  | SMeta id => fun r d' => r = sled_meta_of id d /\ d' = d
  | SPacks => fun r d' => r = sled_packs d /\ d' = d
  | SForwarding => fun r d' => r = sled_forwarding d /\ d' = d
  | _ => fun _ _ => False
  end.
Definition on_store (o : act) : bool :=
  match o with
  | SPush _ | SAdd _ | SRemove _ | SUpdate _ | SHas _ | SGet _ | SMeta _ | SPacks | SForwarding => true
  | _ => false
  end.
Definition store_event (e : event) : bool := match e with EStep _ (LAct o _) => on_store o | _ => false end.
(** sled.rs:127-139 (and 47): asking for a key that is not there ends the task *)
Definition deadly (o : act) : resp o -> disk -> bool :=
  match o return resp o -> disk -> bool with
  | SGet _ => fun r _ => bool_decide (r = None)
  | SMeta _ => fun r _ => bool_decide (r = None)
  | SRemove id => fun _ d => bool_decide (snd (sled_remove id d) = SPanic)
  | _ => fun _ _ => false
  end.
(** files and node; the store in the node's memory is not used and stays empty *)
Notation dnode := (disk * machine)%type.

Section disk.
Context (host : eid) (gen_reports parallel : bool) (parse_record : list N -> option arecord)
        (lifetime_exceeded : N -> bundle -> bool).
Notation mstep := (mstep host gen_reports parallel parse_record lifetime_exceeded).
Notation path := (path host gen_reports parallel parse_record lifetime_exceeded).
Notation run := (run host gen_reports parallel parse_record lifetime_exceeded).
Notation lives := (lives host gen_reports parallel parse_record lifetime_exceeded).
Notation access := (access host lifetime_exceeded).
Inductive dstep : dnode -> event -> dnode -> Prop :=
| ds_store d x i k p o r p' d' :
    m_tasks x !! i = Some (k, p) -> pstep p (LAct o r) p' -> disk_access (n_time (m_node x)) d o r d' ->
    dstep (d, x) (EStep i (LAct o r))
      (d', Machine (m_node x) (<[i := (k, if deadly o r d then Panic else p')]> (m_tasks x)))
| ds_other d x e x' : store_event e = false -> mstep x e x' -> dstep (d, x) e (d, x').
Inductive drun : list event -> dnode -> Prop :=
| drun_init x : initial x -> drun [] (disk0, x)
| drun_step tr y e y' : drun tr y -> dstep y e y' -> drun (tr ++ [e]) y'.
(** The process ends at any point, possibly inside a store operation, and the
    daemon is started again on the files (as [restarted] in Restart.v). *)
Definition drestarted (y y0 : dnode) : Prop :=
  (y0.1 = y.1 \/ exists o k, (k < length (fst (sled_op o y.1)))%nat /\ y0.1 = apply_all y.1 (take k (fst (sled_op o y.1)))) /\
  n_store (m_node y0.2) = mem0 /\ m_tasks y0.2 = [] /\
  (forall c, n_stats (m_node y0.2) c = 0) /\ (forall x, x ∈ n_eps (m_node y0.2) -> ep_queue x = []).
(** everything that happens to a node in all its lives *)
Inductive devent := Ev (e : event) | Stop.
Inductive dlives : list devent -> dnode -> Prop :=
| dlives_new x : initial x -> dlives [] (disk0, x)
| dlives_step h y e y' : dlives h y -> dstep y e y' -> dlives (h ++ [Ev e]) y'
| dlives_again h y y0 : dlives h y -> drestarted y y0 -> dlives (h ++ [Stop]) y0.

(** ** Refinement *)
Definition abs (d : disk) : mem := Mem (d_bundles d) (d_meta d).
Definition task_like (a b : kind * prog unit) : Prop := a.1 = b.1 /\ (a.2 = b.2 \/ a.2 = Panic).
Definition like (y : dnode) (m : machine) : Prop :=
  m_node m = set_store (m_node y.2) (abs y.1) /\ Forall2 task_like (m_tasks y.2) (m_tasks m).

Lemma disk_access_abs n d o r d' : keys_ok (abs d) -> disk_access (n_time n) d o r d' ->
  access (set_store n (abs d)) o r (set_store n (abs d')).
Proof.
  intros Hk. destruct o; cbn; try done; try (by intros [-> ->]).
  - intros [[-> ->]|[-> ->]]; [|by right]. unfold sled_push, mem_push, abs. cbn.
    destruct (d_bundles d !! bid b) eqn:E1; cbn; [by left|]. destruct (d_meta d !! bid b) eqn:E2; cbn; [by right; destruct d|by left].
  - intros [[-> ->]|(-> & ? & ->)]; [|by right]. unfold sled_add_if_unknown, mem_add_if_unknown, sled_has, mem_has, sled_push, mem_push, abs. cbn.
    destruct (d_bundles d !! bid b) eqn:E1; cbn; [left; by destruct d|]. destruct (d_meta d !! bid b) eqn:E2; cbn; [right; by destruct d|by left].
  - intros [[-> ->]|[-> ->]]; [|by right; left]. unfold sled_remove, mem_remove, mem_update, abs. cbn.
    destruct (d_meta d !! id) as [p|] eqn:E1; cbn; [|right; left; by destruct d].
    assert (Ei : p_id p = id) by (by apply (Hk id p)). rewrite Ei, E1. cbn.
    destruct (d_bundles d !! id) as [b|] eqn:E2; cbn; [by left|]. right. right. split; [done|]. split; [eauto|].
    rewrite delete_notin by done. done.
  - intros [[-> ->]|[-> ->]]; [|by right]. unfold sled_update, mem_update, abs. cbn.
    destruct (d_meta d !! p_id p) eqn:E; cbn; [by left|right; by destruct d].
Qed.
Lemma access_frame n s o r n' : on_store o = false -> access n o r n' -> access (set_store n s) o r (set_store n' s).
Proof.
  intros Ho Ha. destruct o; try done; cbn in *; unfold has_endpoint, find_ep, set_eps, set_peers, count in *; cbn in *.
  all: repeat (case_match || destruct_or? Ha || destruct_and? Ha); subst; cbn; eauto 10.
Qed.
Lemma like_task y m i k p : like y m -> m_tasks y.2 !! i = Some (k, p) -> p <> Panic -> m_tasks m !! i = Some (k, p).
Proof.
  intros [_ H] Hi Hp. destruct (Forall2_lookup_l _ _ _ _ _ H Hi) as ([k' p'] & Hm & [E1 E2]). cbn in *. subst k'.
  destruct E2 as [->|?]; done.
Qed.
Lemma pstep_alive {A} (p : prog A) l p' : pstep p l p' -> p <> Panic.
Proof. by inversion 1. Qed.
Lemma like_insert (y : dnode) (m : machine) i k p p' : Forall2 task_like (m_tasks y.2) (m_tasks m) -> (p = p' \/ p = Panic) ->
  Forall2 task_like (<[i := (k, p)]> (m_tasks y.2)) (<[i := (k, p')]> (m_tasks m)).
Proof. intros. by apply Forall2_insert. Qed.
Lemma dstep_like y e y' m : dstep y e y' -> like y m -> keys_ok (n_store (m_node m)) -> exists m', mstep m e m' /\ like y' m'.
Proof.
  intros Hs [En Ht] Hk. destruct Hs as [d x i k p o r p' d' Hi Hp Ha|d x e x' Hse Hs]; cbn [fst snd] in *.
  - exists (Machine (set_store (m_node x) (abs d')) (<[i := (k, p')]> (m_tasks m))). split.
    + eapply ms_act; [|done|].
      * eapply (like_task (d, x)); [done|done|by eapply pstep_alive].
      * rewrite En. rewrite En in Hk. by apply disk_access_abs.
    + split; [done|]. cbn [fst snd m_tasks]. apply (like_insert (d, x)); [done|]. destruct (deadly o r d); auto.
  - assert (Htl : forall k, Forall2 task_like (m_tasks x ++ [(k, task_of host gen_reports parallel parse_record k)])
        (m_tasks m ++ [(k, task_of host gen_reports parallel parse_record k)])).
    { intros k. apply Forall2_app; [done|]. constructor; [split; auto|constructor]. }
    destruct Hs as [x k Hst|x ep|x ep|x ep on|x ps|x u d0 H1 H2|x i k p o r p' n' Hi Hp Ha|x i k p q p' Hi Hp|x i k p p' Hi Hp].
    + eexists. split; [by apply ms_start|]. split; [done|]. apply Htl.
    + eexists. split; [by apply ms_register|]. rewrite En.
      change (has_endpoint ep (set_store (m_node x) (abs d))) with (has_endpoint ep (m_node x)).
      by destruct (has_endpoint ep (m_node x)).
    + eexists. split; [by apply ms_unregister|]. rewrite En. done.
    + eexists. split; [by apply ms_subscribe|]. rewrite En. done.
    + eexists. split; [by apply ms_peers|]. rewrite En. done.
    + eexists. split; [apply ms_time|]; [rewrite En; done|rewrite En; done|]. rewrite En. done.
    + exists (Machine (set_store n' (abs d)) (<[i := (k, p')]> (m_tasks m))). split.
      * eapply ms_act; [|done|].
        -- eapply (like_task (d, x)); [done|done|by eapply pstep_alive].
        -- rewrite En. by apply access_frame.
      * split; [done|]. apply (like_insert (d, x)); auto.
    + eexists. split; [eapply ms_spawn; [eapply (like_task (d, x)); [done|done|by eapply pstep_alive]|done]|]. split; [done|].
      cbn [fst snd m_tasks]. apply Forall2_app; [apply (like_insert (d, x)); auto|]. constructor; [split; auto|constructor].
    + eexists. split; [eapply ms_join; [eapply (like_task (d, x)); [done|done|by eapply pstep_alive]|done]|]. split; [done|].
      apply (like_insert (d, x)); auto.
Qed.
Lemma run_keys tr m : run tr m -> keys_ok (n_store (m_node m)).
Proof.
  induction 1 as [m (E & _)|]; [|by eapply mstep_keys]. rewrite E. intros id p. cbn. by rewrite lookup_empty.
Qed.
Lemma drun_like tr y : drun tr y -> exists m, run tr m /\ like y m.
Proof.
  induction 1 as [x Hx|tr y e y' _ (m & Hr & Hl) Hs].
  - exists x. split; [by constructor|]. destruct Hx as (E & Et & _). split; [|cbn [snd]; rewrite Et; constructor]. cbn. destruct (m_node x); cbn in *. by rewrite E.
  - destruct (dstep_like _ _ _ _ Hs Hl (run_keys _ _ Hr)) as (m' & Hm & Hl'). exists m'. split; [by eapply run_step|done].
Qed.
Inductive dpath : dnode -> list event -> dnode -> Prop :=
| dpath_nil y : dpath y [] y
| dpath_cons y e y1 es y' : dstep y e y1 -> dpath y1 es y' -> dpath y (e :: es) y'.
Lemma dpath_like y tr y' m : dpath y tr y' -> like y m -> keys_ok (n_store (m_node m)) -> exists m', path m tr m' /\ like y' m'.
Proof.
  intros H. revert m. induction H as [y|y e y1 es y' Hs _ IH]; intros m Hl Hk; [exists m; split; [constructor|done]|].
  destruct (dstep_like _ _ _ _ Hs Hl Hk) as (m1 & Hm & Hl1). destruct (IH m1 Hl1) as (m' & Hp & Hl').
  - by eapply mstep_keys.
  - exists m'. split; [by econstructor|done].
Qed.
Lemma cut_op d o k : keys_ok (abs d) -> (k < length (fst (sled_op o d)))%nat ->
  left_behind (abs d) (abs (apply_all d (take k (fst (sled_op o d))))).
Proof.
  intros Hk. destruct o as [now b|p|id]; cbn [sled_op]; unfold sled_push, sled_update, sled_remove.
  - destruct (d_bundles d !! bid b) eqn:E; cbn.
    + intros H. assert (k = 0)%nat as -> by lia. constructor.
    + destruct (d_meta d !! bid b) eqn:E2; cbn; [lia|]. intros H. destruct k as [|[|k]]; cbn; [constructor| |lia]. by apply lb_push.
  - destruct (d_meta d !! p_id p) eqn:E; cbn; [|lia]. intros H. assert (k = 0)%nat as -> by lia. constructor.
  - destruct (d_meta d !! id) as [p|] eqn:E; cbn; [|lia]. assert (Ei : p_id p = id) by (by apply (Hk id p)). rewrite Ei, E. cbn.
    intros H. destruct k as [|[|k]]; cbn; [constructor| |lia]. by apply lb_remove.
Qed.
Lemma drestarted_like y y0 m : drestarted y y0 -> like y m -> keys_ok (n_store (m_node m)) -> exists m0, restarted m m0 /\ like y0 m0.
Proof.
  intros (Hd & Hs & Ht & Hst & Hep) [En _] Hk. exists (Machine (set_store (m_node y0.2) (abs y0.1)) []).
  split; [|split; [done|rewrite Ht; constructor]]. split; [|done]. cbn. rewrite En in *. cbn in *.
  destruct Hd as [-> |(o & k & Hlt & ->)]; [constructor|by apply cut_op].
Qed.
Lemma dlives_like h y : dlives h y -> exists m, lives m /\ like y m.
Proof.
  induction 1 as [x Hx|h y e y' _ (m & Hr & Hl) Hs|h y y0 _ (m & Hr & Hl) Hs].
  - exists x. split; [by constructor|]. destruct Hx as (E & Et & _). split; [|cbn [snd]; rewrite Et; constructor]. cbn. destruct (m_node x); cbn in *. by rewrite E.
  - destruct (dstep_like _ _ _ _ Hs Hl (lives_keys _ _ _ _ _ _ Hr)) as (m' & Hm & Hl'). exists m'. split; [by eapply lives_step|done].
  - destruct (drestarted_like _ _ _ Hs Hl (lives_keys _ _ _ _ _ _ Hr)) as (m' & Hm & Hl'). exists m'. split; [by eapply lives_again|done].
Qed.

(** ** What is recorded stays recorded *)
Lemma write_meta d w id : is_Some (d_meta d !! id) -> is_Some (d_meta (do_write d w) !! id).
Proof. destruct w; cbn; try done. rewrite lookup_insert_is_Some'. auto. Qed.
Lemma writes_meta ws d id : is_Some (d_meta d !! id) -> is_Some (d_meta (apply_all d ws) !! id).
Proof. revert d. induction ws as [|w ws IH]; intros d H; [done|]. cbn. apply IH. by apply write_meta. Qed.
Lemma dstep_meta y e y' id : dstep y e y' -> is_Some (d_meta y.1 !! id) -> is_Some (d_meta y'.1 !! id).
Proof.
  intros Hs H. destruct Hs as [d x i k p o r p' d' _ _ Ha|]; [|done]. cbn in *.
  destruct o; cbn in Ha; repeat (destruct_or? Ha || destruct_and? Ha); subst; try done; by apply writes_meta.
Qed.
Definition takes_in (b : bundle) (e : event) : Prop :=
  exists i, e = EStep i (LAct (SAdd b) (Some true)) \/ e = EStep i (LAct (SPush b) true).
(** Stepping to [takes_in] *)
Lemma dstep_act d x i o r y' : on_store o = true -> dstep (d, x) (EStep i (LAct o r)) y' -> disk_access (n_time (m_node x)) d o r y'.1.
Proof.
  intros Ho Hs. remember (EStep i (LAct o r)) as e eqn:Ee. remember (d, x) as y eqn:Ey.
  destruct Hs as [d0 x0 i0 k p o0 r0 p' d' _ _ Ha|d0 x0 e x' Hse _].
  - injection Ey as -> ->. injection Ee as -> -> Er. apply (Eqdep_dec.inj_pair2_eq_dec _ (fun x y => decide (x = y))) in Er. by subst.
  - subst e. cbn in Hse. congruence.
Qed.
Lemma push_meta now b d : is_Some (d_meta (apply_all d (fst (sled_push now b d))) !! bid b) \/ d_meta d !! bid b = None.
Proof. destruct (d_meta d !! bid b) eqn:E; [|by right]. left. apply writes_meta. eauto. Qed.
Lemma takes_in_meta y e y' b : (forall id, is_Some (d_bundles y.1 !! id) -> is_Some (d_meta y.1 !! id)) ->
  dstep y e y' -> takes_in b e -> is_Some (d_meta y'.1 !! bid b).
Proof.
  intros Hb Hs (i & [-> | ->]); destruct y as [d x]; apply dstep_act in Hs; try done; cbn in Hs, Hb.
  - destruct Hs as [[E ->]|(? & _)]; [|done]. revert E. unfold sled_add_if_unknown, sled_push.
    destruct (sled_has (bid b) d) eqn:Eh; [done|]. unfold sled_has in Eh. apply bool_decide_eq_false in Eh.
    destruct (d_bundles d !! bid b) eqn:E1; [exfalso; eauto|]. destruct (d_meta d !! bid b) eqn:E2; [done|]. cbn. rewrite lookup_insert. eauto.
  - destruct Hs as [[E ->]|(? & _)]; [|done]. revert E. unfold sled_push.
    destruct (d_bundles d !! bid b) eqn:E1; [|destruct (d_meta d !! bid b) eqn:E2]; cbn; [intros _; eauto|done|]. rewrite lookup_insert. eauto.
Qed.
Lemma accept_fresh y i b y' : dstep y (EStep i (LAct (SAdd b) (Some true))) y' -> d_meta y.1 !! bid b = None.
Proof.
  intros Hs; destruct y as [d x]; apply dstep_act in Hs; try done; cbn in Hs. destruct Hs as [[E _]|(? & _)]; [|done]. revert E.
  unfold sled_add_if_unknown, sled_push. destruct (sled_has (bid b) d) eqn:Eh; [done|]. unfold sled_has in Eh. apply bool_decide_eq_false in Eh.
  destruct (d_bundles d !! bid b) eqn:E1; [exfalso; eauto|]. by destruct (d_meta d !! bid b) eqn:E2.
Qed.
(** a stored bundle has its metadata *)
Definition has_meta (d : disk) : Prop := forall id, is_Some (d_bundles d !! id) -> is_Some (d_meta d !! id).
Lemma write_has d w : has_meta d -> match w with WBundle id _ => is_Some (d_meta d !! id) | _ => True end -> has_meta (do_write d w).
Proof.
  intros H Hw id. destruct w; cbn.
  - intros Hb. rewrite lookup_insert_is_Some'. auto.
  - rewrite lookup_insert_is_Some'. intros [<-|?]; auto.
  - rewrite lookup_delete_is_Some. intros [_ ?]. auto.
Qed.
Lemma op_has d o k : has_meta d -> has_meta (apply_all d (take k (fst (sled_op o d)))).
Proof.
  intros H. destruct o as [now b|p|id]; cbn [sled_op]; unfold sled_push, sled_update, sled_remove.
  - destruct (d_bundles d !! bid b) as [b0|] eqn:E; [|destruct (d_meta d !! bid b) as [q|] eqn:E2]; cbn [fst].
    + destruct k; cbn [take apply_all fold_left]; rewrite ?take_nil; [done|]. apply write_has; [done|]. apply H. eauto.
    + by rewrite take_nil.
    + destruct k as [|[|k]]; cbn [take apply_all fold_left]; rewrite ?take_nil; cbn [fold_left]; [done|by apply write_has|].
      apply write_has; [by apply write_has|]. cbn. rewrite lookup_insert. eauto.
  - destruct (d_meta d !! p_id p) eqn:E; cbn [fst]; [|by rewrite take_nil].
    destruct k as [|k]; cbn [take apply_all fold_left]; rewrite ?take_nil; [done|]. by apply write_has.
  - destruct (d_meta d !! id) as [p|] eqn:E; [destruct (d_meta d !! p_id (tombstone p))|]; cbn [fst]; [|by rewrite take_nil..].
    destruct k as [|[|k]]; cbn [take apply_all fold_left]; rewrite ?take_nil; cbn [fold_left]; [done|by apply write_has|].
    apply write_has; [by apply write_has|done].
Qed.
Lemma op_has_full d o : has_meta d -> has_meta (apply_all d (fst (sled_op o d))).
Proof. intros H. rewrite <- (take_ge (fst (sled_op o d)) (length (fst (sled_op o d)))) by lia. by apply op_has. Qed.
Lemma dstep_has y e y' : dstep y e y' -> has_meta y.1 -> has_meta y'.1.
Proof.
  intros Hs H. destruct Hs as [d x i k p o r p' d' _ _ Ha|]; [|done]. cbn in *.
  destruct o; cbn in Ha; repeat (destruct_or? Ha || destruct_and? Ha); subst; try done.
  - by apply (op_has_full d (Push _ _)).
  - unfold sled_add_if_unknown. destruct (sled_has (bid b) d); [done|].
    assert (Hp := op_has_full d (Push (n_time (m_node x)) b) H). cbn [sled_op] in Hp. by destruct (sled_push (n_time (m_node x)) b d) as [ws []].
  - by apply (op_has_full d (Remove _)).
  - by apply (op_has_full d (Update _)).
Qed.
Lemma dlives_has h y : dlives h y -> has_meta y.1.
Proof.
  induction 1 as [x _|h y e y' _ IH Hs|h y y0 _ IH (Hd & _)].
  - intros id. cbn. rewrite lookup_empty. by intros [? ?].
  - by eapply dstep_has.
  - destruct Hd as [->|(o & k & _ & ->)]; [done|by apply op_has].
Qed.
Lemma dlives_meta h y b e : dlives h y -> Ev e ∈ h -> takes_in b e -> is_Some (d_meta y.1 !! bid b).
Proof.
  induction 1 as [x _|h y e' y' Hr IH Hs|h y y0 Hr IH (Hd & _)]; intros Hi Ht.
  - by apply elem_of_nil in Hi.
  - apply elem_of_app in Hi as [Hi|Hi]; [eapply dstep_meta; [done|by apply IH]|].
    apply elem_of_list_singleton in Hi. injection Hi as ->. eapply takes_in_meta; [|done|done]. by eapply dlives_has.
  - apply elem_of_app in Hi as [Hi|Hi]; [|by apply elem_of_list_singleton in Hi].
    destruct Hd as [->|(o & k & _ & ->)]; [by apply IH|]. apply writes_meta. by apply IH.
Qed.
Lemma dlives_prefix h1 h2 y : dlives (h1 ++ h2) y -> exists y1, dlives h1 y1.
Proof.
  revert y. induction h2 as [|e h2 IH] using rev_ind; intros y H; [rewrite app_nil_r in H; eauto|].
  rewrite app_assoc in H. inversion H as [? ? E|h y0 e0 y' Hr Hs E|h y0 y1 Hr Hs E]; [by destruct (h1 ++ h2)| |]; apply app_inj_tail in E as [-> _]; by eapply IH.
Qed.
Lemma dlives_last h e y : dlives (h ++ [Ev e]) y -> exists y0, dlives h y0 /\ dstep y0 e y.
Proof.
  intros H. inversion H as [? ? E|h0 y0 e0 y' Hr Hs E|h0 y0 y1 Hr Hs E]; [by destruct h| |]; apply app_inj_tail in E as [-> E]; [|done].
  injection E as ->. eauto.
Qed.
Lemma drun_dlives tr y : drun tr y -> dlives (map Ev tr) y.
Proof. induction 1; [by constructor|]. rewrite map_app. cbn. by eapply dlives_step. Qed.

(** ** Scripts on this node, to exhibit runs *)
Section interp.
Context (orc : oracle).
Definition disk_reply (now : N) (d : disk) (o : act) : option (resp o * disk) :=
  match o return option (resp o * disk) with
  | SPush b => Some (bool_decide (snd (sled_push now b d) = SOk), apply_all d (fst (sled_push now b d)))
  | SAdd b => Some (snd (sled_add_if_unknown now b d), apply_all d (fst (sled_add_if_unknown now b d)))
  | SRemove id => Some (bool_decide (snd (sled_remove id d) = SOk), apply_all d (fst (sled_remove id d)))
  | SUpdate p => Some (bool_decide (snd (sled_update p d) = SOk), apply_all d (fst (sled_update p d)))
  | SHas id => Some (sled_has id d, d)
  | SGet id => Some (sled_get id d, d)
  | SMeta id => Some (sled_meta_of id d, d)
  | SPacks => Some (sled_packs d, d)
  | SForwarding => Some (sled_forwarding d, d)
  | _ => None
  end.
Lemma disk_reply_ok now d o r d' : disk_reply now d o = Some (r, d') -> disk_access now d o r d'.
Proof. destruct o; cbn; try done; intros [= <- <-]; auto. Qed.
Definition dstep_task (i : nat) (y : dnode) : option (event * dnode) :=
  let other := match step_task host gen_reports parallel parse_record lifetime_exceeded orc i y.2 with
               | Some (e, x') => if store_event e then None else Some (e, (y.1, x'))
               | None => None
               end in
  match m_tasks y.2 !! i with
  | Some (k, Act o c) =>
      match disk_reply (n_time (m_node y.2)) y.1 o with
      | Some (r, d') =>
          Some (EStep i (LAct o r), (d', Machine (m_node y.2) (<[i := (k, if deadly o r y.1 then Panic else c r)]> (m_tasks y.2))))
      | None => other
      end
  | _ => other
  end.
Lemma dstep_task_ok i y e y' : dstep_task i y = Some (e, y') -> dstep y e y'.
Proof.
  unfold dstep_task. destruct y as [d x]. cbn [fst snd].
  assert (Ho : forall z, match step_task host gen_reports parallel parse_record lifetime_exceeded orc i x with
               | Some (e, x') => if store_event e then None else Some (e, (d, x'))
               | None => None end = Some (e, z) -> dstep (d, x) e z).
  { intros z. destruct (step_task _ _ _ _ _ _ i x) as [[e0 x']|] eqn:E; [|done]. destruct (store_event e0) eqn:Es; [done|].
    intros [= <- <-]. apply ds_other; [done|by eapply step_task_sound]. }
  destruct (m_tasks x !! i) as [[k [| |o c| |]]|] eqn:Ei; auto.
  destruct (disk_reply (n_time (m_node x)) d o) as [[r d']|] eqn:Er; [|auto]. intros [= <- <-].
  eapply ds_store; [done|constructor|by apply disk_reply_ok].
Qed.
Fixpoint dsteps (fuel : nat) (i : nat) (y : dnode) : list event * dnode :=
  match fuel with
  | O => ([], y)
  | S fuel =>
      match dstep_task i y with
      | None => ([], y)
      | Some (e, y') => let z := dsteps fuel i y' in (e :: fst z, snd z)
      end
  end.
Definition dexec (x : instr) (y : dnode) : list event * dnode :=
  match x with
  | DoStart k => if started k then ([EStart k], (y.1, Machine (m_node y.2) (m_tasks y.2 ++ [(k, task_of host gen_reports parallel parse_record k)]))) else ([], y)
  | DoEnv e => match env e y.2 with Some x' => ([e], (y.1, x')) | None => ([], y) end
  | DoRun i => dsteps 500 i y
  | DoSteps i n => dsteps n i y
  end.
Fixpoint dscript (l : list instr) (y : dnode) : list event * dnode :=
  match l with
  | [] => ([], y)
  | x :: l => let z := dexec x y in let w := dscript l (snd z) in (fst z ++ fst w, snd w)
  end.
Lemma dpath_app y1 t1 y2 t2 y3 : dpath y1 t1 y2 -> dpath y2 t2 y3 -> dpath y1 (t1 ++ t2) y3.
Proof. induction 1; intros H2; [done|]. cbn. econstructor; [done|]. by apply IHdpath. Qed.
Lemma dsteps_path fuel i y : dpath y (fst (dsteps fuel i y)) (snd (dsteps fuel i y)).
Proof.
  revert y. induction fuel as [|fuel IH]; intros y; cbn; [constructor|].
  destruct (dstep_task i y) as [[e y']|] eqn:E; cbn; [|constructor]. econstructor; [by eapply dstep_task_ok|apply IH].
Qed.
Lemma dscript_path l y : dpath y (fst (dscript l y)) (snd (dscript l y)).
Proof.
  revert y. induction l as [|x l IH]; intros y; cbn; [constructor|]. eapply dpath_app; [|apply IH].
  destruct x as [k|e|i|i n]; cbn [dexec]; try apply dsteps_path; destruct y as [d x].
  - destruct (started k) eqn:E; cbn; [|constructor]. econstructor; [|constructor]. apply ds_other; [done|by constructor].
  - destruct (env e x) eqn:E; cbn [fst snd]; rewrite E; cbn; [|constructor]. econstructor; [|constructor].
    apply ds_other; [|by apply env_sound]. by destruct e.
Qed.
Lemma drun_path tr y tr' y' : drun tr y -> dpath y tr' y' -> drun (tr ++ tr') y'.
Proof.
  intros Hr Hp. revert tr Hr. induction Hp as [y|y e y1 es y' Hs _ IH]; intros tr Hr; [by rewrite app_nil_r|].
  rewrite cons_middle, app_assoc. apply IH. by econstructor.
Qed.
Lemma dlives_path h y tr y' : dlives h y -> dpath y tr y' -> dlives (h ++ map Ev tr) y'.
Proof.
  intros Hr Hp. revert h Hr. induction Hp as [y|y e y1 es y' Hs _ IH]; intros tr Hr; [by rewrite app_nil_r|].
  cbn [map]. rewrite cons_middle, app_assoc. apply IH. by econstructor.
Qed.
End interp.
End disk.
