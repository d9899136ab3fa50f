(** Nodes that are stopped at any point and started again (for C141-C143). *)
From stdpp Require Import prelude strings pretty gmap sorting.
From Coq Require Import NArith Lia.
From Verif Require Import Core StoreMem Peers Routing Pipeline PipelineBase PipelineInv PipelineRun.
Open Scope N_scope.

(** What the files of the store hold when the process ends (sled.rs:20-60): the
    effect of every operation that was completed, and possibly the first half of
    one that was not: a new bundle's metadata without the bundle (28-33), or the
    tombstone of a bundle that is still there (46-53). *)
Inductive left_behind (s : mem) : mem -> Prop :=
| lb_all : left_behind s s
| lb_push now b : m_bundles s !! bid b = None ->
    left_behind s (Mem (m_bundles s) (<[bid b := pack_of now b]> (m_meta s)))
| lb_remove id p : m_meta s !! id = Some p ->
    left_behind s (Mem (m_bundles s) (<[id := tombstone p]> (m_meta s))).
(** dtnd/daemon.rs:66-165 start_dtnd: the store is opened (77), the configured
    endpoints are registered with empty queues (130-144), nothing else of the
    former life is read.  Neighbours and times are arbitrary. *)
Definition restarted (m m0 : machine) : Prop :=
  left_behind (n_store (m_node m)) (n_store (m_node m0)) /\ m_tasks m0 = [] /\
  (forall c, n_stats (m_node m0) c = 0) /\ (forall x, x ∈ n_eps (m_node m0) -> ep_queue x = []).

Section restart.
Context (host : eid) (gen_reports parallel : bool) (parse_record : list N -> option arecord)
        (lifetime_exceeded : N -> bundle -> bool).
Notation mstep := (mstep host gen_reports parallel parse_record lifetime_exceeded).
Notation path := (path host gen_reports parallel parse_record lifetime_exceeded).
(** the states of a node in all its lives *)
Inductive lives : machine -> Prop :=
| lives_new m : initial m -> lives m
| lives_step m e m' : lives m -> mstep m e m' -> lives m'
| lives_again m m0 : lives m -> restarted m m0 -> lives m0.
(** it has just been started *)
Definition boots (m0 : machine) : Prop := lives m0 /\ m_tasks m0 = [].

Definition keys_ok (s : mem) : Prop := forall id p, m_meta s !! id = Some p -> p_id p = id.
Lemma keys_insert s bs p : keys_ok s -> keys_ok (Mem bs (<[p_id p := p]> (m_meta s))).
Proof. intros H id q. cbn. intros [[<- <-]|[_ Hq]]%lookup_insert_Some; [done|by apply H]. Qed.
Lemma keys_push now b s : keys_ok s -> keys_ok (mem_push now b s).
Proof. intros H. unfold mem_push. repeat case_match; [done|..]; try (by apply (keys_insert s _ (pack_of now b))); done. Qed.
Lemma keys_update p s : keys_ok s -> keys_ok (fst (mem_update p s)).
Proof. intros H. unfold mem_update. case_match; [by apply keys_insert|done]. Qed.
Lemma keys_remove id s : keys_ok s -> keys_ok (fst (mem_remove id s)).
Proof.
  intros H. unfold mem_remove. destruct (m_meta s !! id) as [p|] eqn:E; [|done].
  pose proof (keys_update (tombstone p) s H) as Hu. destruct (mem_update (tombstone p) s) as [s' []]; cbn in *; [|done].
  case_match; done.
Qed.
Lemma access_keys n o r n' : access host lifetime_exceeded n o r n' -> keys_ok (n_store n) -> keys_ok (n_store n').
Proof.
  intros Ha H. destruct o; cbn in Ha; repeat (case_match || destruct_or? Ha || destruct_and? Ha); subst; cbn; try done.
  - by apply keys_push.
  - unfold mem_add_if_unknown. case_match; cbn; [done|by apply keys_push].
  - by apply keys_remove.
  - by apply keys_remove.
  - by apply keys_update.
Qed.
Lemma mstep_keys m e m' : mstep m e m' -> keys_ok (n_store (m_node m)) -> keys_ok (n_store (m_node m')).
Proof. intros Hs H. destruct Hs; cbn; try done; [case_match; done|by eapply access_keys]. Qed.
Lemma lives_keys m : lives m -> keys_ok (n_store (m_node m)).
Proof.
  induction 1 as [m (E & _)|m e m' _ IH Hs|m m0 _ IH [Hl _]].
  - rewrite E. intros id p. cbn. by rewrite lookup_empty.
  - by eapply mstep_keys.
  - destruct Hl as [|now b _|id p Hp]; [done|by apply (keys_insert _ _ (pack_of now b))|].
    rewrite <- (IH _ _ Hp). by apply (keys_insert _ _ (tombstone p)).
Qed.
Lemma path_lives m es m' : path m es m' -> lives m -> lives m'.
Proof. induction 1; intros; [done|]. apply IHpath. by eapply lives_step. Qed.
(** scripts are executions *)
Lemma path_app m1 t1 m2 t2 m3 : path m1 t1 m2 -> path m2 t2 m3 -> path m1 (t1 ++ t2) m3.
Proof. induction 1; intros H2; [done|]. cbn. econstructor; [done|]. by apply IHpath. Qed.
Lemma steps_path orc fuel i m : path m (fst (steps host gen_reports parallel parse_record lifetime_exceeded orc fuel i m))
  (snd (steps host gen_reports parallel parse_record lifetime_exceeded orc fuel i m)).
Proof.
  revert m. induction fuel as [|fuel IH]; intros m; cbn; [constructor|].
  destruct (step_task _ _ _ _ _ _ i m) as [[e m']|] eqn:E; cbn; [|constructor].
  econstructor; [by eapply step_task_sound|apply IH].
Qed.
Lemma script_path orc l m : path m (fst (script host gen_reports parallel parse_record lifetime_exceeded orc l m))
  (snd (script host gen_reports parallel parse_record lifetime_exceeded orc l m)).
Proof.
  revert m. induction l as [|x l IH]; intros m; cbn; [constructor|]. eapply path_app; [|apply IH].
  destruct x as [k|e|i|i n]; cbn [exec1]; try apply steps_path.
  - destruct (started k) eqn:E; cbn; [|constructor]. econstructor; [by constructor|constructor].
  - destruct (env e m) eqn:E; cbn; [|constructor]. econstructor; [by apply env_sound|constructor].
Qed.
End restart.
