(** C149: the queue of an application, in the node as a whole. *)
From stdpp Require Import prelude strings pretty gmap sorting.
From Coq Require Import NArith Lia ZifyBool ZifyN ZifyNat.
From Verif Require Import Core StoreMem Peers Routing Pipeline PipelineBase PipelineProofs PipelineInv PipelineRun TransferProofs Props_Transfer ReceptionProofs Props_Reception CauseProofs LocalProofs Props_Cause DeliverProofs Props_Deliver.
Open Scope N_scope.

(** ** Specification *)
(** the bundles put into the queue of endpoint [e], and those fetched from it *)
Definition queued (e : eid) (tr : list event) : list bundle :=
  omap (fun v => match v with EStep _ (LAct (Deliver e' b) Queued) => if decide (e' = e) then Some b else None | _ => None end) tr.
Definition fetched_from (e : eid) (tr : list event) : list bundle :=
  omap (fun v => match v with EStep _ (LAct (Pop e') (Some b)) => if decide (e' = e) then Some b else None | _ => None end) tr.
(** nothing before [t2] counts: [t2] begins with the start of the node or right
    after the endpoint was unregistered; it is not unregistered since *)
Definition one_registration (e : eid) (t1 t2 : list event) : Prop :=
  (t1 = [] \/ exists t0, t1 = t0 ++ [EUnregister e]) /\ EUnregister e ∉ t2.

(** ** Proofs *)
Definition tidy_after (e : eid) (l : list endpoint) : Prop := Forall (fun x => ep_eid x = e -> ep_queue x = []) (remove_ep e l).
Definition first_ep (e : eid) (l : list endpoint) : option endpoint := List.find (fun x => bool_decide (e = ep_eid x)) l.
Definition agrees (e : eid) (s : list event) (l : list endpoint) : Prop :=
  tidy_after e l /\
  match first_ep e l with
  | Some x => queued e s = fetched_from e s ++ ep_queue x
  | None => queued e s = [] /\ fetched_from e s = []
  end.
Lemma first_alter e f l : (forall x, ep_eid (f x) = ep_eid x) -> first_ep e (alter_ep e f l) = f <$> first_ep e l.
Proof.
  intros Hf. induction l as [|x l IH]; [done|]. cbn. case_bool_decide as Hx; cbn.
  - by rewrite bool_decide_true by (rewrite Hf; done).
  - by rewrite bool_decide_false.
Qed.
Lemma first_alter_ne e e' f l : (forall x, ep_eid (f x) = ep_eid x) -> e <> e' -> first_ep e (alter_ep e' f l) = first_ep e l.
Proof.
  intros Hf Hne. induction l as [|x l IH]; [done|]. cbn [alter_ep]. destruct (decide (e' = ep_eid x)) as [Hx|Hx].
  - rewrite bool_decide_true by done. cbn. by rewrite !bool_decide_false by (rewrite ?Hf; congruence).
  - rewrite bool_decide_false by done. cbn. case_bool_decide; [done|]. apply IH.
Qed.
Lemma remove_alter e f l : (forall x, ep_eid (f x) = ep_eid x) -> remove_ep e (alter_ep e f l) = remove_ep e l.
Proof.
  intros Hf. induction l as [|x l IH]; [done|]. cbn. case_bool_decide as Hx; cbn.
  - by rewrite bool_decide_true by (rewrite Hf; done).
  - rewrite bool_decide_false by done. by rewrite IH.
Qed.
Lemma alter_Forall e e' f l : (forall x, ep_eid (f x) = ep_eid x) -> e <> e' ->
  Forall (fun x => ep_eid x = e -> ep_queue x = []) l -> Forall (fun x => ep_eid x = e -> ep_queue x = []) (alter_ep e' f l).
Proof.
  intros Hf Hne. induction 1 as [|x l Hx Hl IH]; [by constructor|]. cbn. case_bool_decide as E.
  - constructor; [|done]. rewrite Hf. congruence.
  - by constructor.
Qed.
Lemma remove_alter_ne e e' f l : (forall x, ep_eid (f x) = ep_eid x) -> e <> e' -> remove_ep e (alter_ep e' f l) = alter_ep e' f (remove_ep e l).
Proof.
  intros Hf Hne. induction l as [|x l IH]; [done|]. cbn [alter_ep remove_ep]. destruct (decide (e' = ep_eid x)) as [Hx|Hx].
  - rewrite (bool_decide_true (e' = ep_eid x)) by done. cbn. rewrite !(bool_decide_false (e = _)) by (rewrite ?Hf; congruence). cbn. by rewrite bool_decide_true.
  - rewrite (bool_decide_false (e' = _)) by done. cbn. case_bool_decide as E; [done|]. cbn. rewrite (bool_decide_false (e' = _)) by done. by rewrite IH.
Qed.
Lemma tidy_alter e e' f l : (forall x, ep_eid (f x) = ep_eid x) -> tidy_after e l -> tidy_after e (alter_ep e' f l).
Proof.
  intros Hf H. unfold tidy_after in *. destruct (decide (e = e')) as [->|Hne]; [by rewrite remove_alter|]. rewrite remove_alter_ne by done. by apply alter_Forall.
Qed.
Lemma first_remove_ne e e' l : e <> e' -> first_ep e (remove_ep e' l) = first_ep e l.
Proof.
  intros Hne. induction l as [|x l IH]; [done|]. cbn [remove_ep]. destruct (decide (e' = ep_eid x)) as [Hx|Hx].
  - rewrite bool_decide_true by done. cbn. by rewrite bool_decide_false by congruence.
  - rewrite bool_decide_false by done. cbn. case_bool_decide; [done|]. apply IH.
Qed.
Lemma Forall_remove_ep P e l : Forall P l -> Forall P (remove_ep e l).
Proof. induction 1 as [|x l Hx Hl IH]; [by constructor|]. cbn. case_bool_decide; [done|by constructor]. Qed.
Lemma remove_remove e e' l : remove_ep e (remove_ep e' l) = remove_ep e' (remove_ep e l).
Proof.
  destruct (decide (e = e')) as [->|Hne]; [done|]. induction l as [|x l IH]; [done|]. cbn. destruct (decide (e' = ep_eid x)) as [H1|H1], (decide (e = ep_eid x)) as [H2|H2]; try congruence.
  - rewrite bool_decide_true, (bool_decide_false (e = _)) by done. cbn. by rewrite bool_decide_true.
  - rewrite bool_decide_false, (bool_decide_true (e = _)) by done. cbn. by rewrite bool_decide_true.
  - rewrite !bool_decide_false by done. cbn. rewrite !bool_decide_false by done. by rewrite IH.
Qed.
Lemma first_in e l x : first_ep e l = Some x -> x ∈ l /\ ep_eid x = e.
Proof. intros H. apply List.find_some in H as [H1 H2]. apply bool_decide_eq_true in H2. by apply elem_of_list_In in H1. Qed.
Lemma first_app e l x : first_ep e (l ++ [x]) = match first_ep e l with Some y => Some y | None => if bool_decide (e = ep_eid x) then Some x else None end.
Proof. induction l as [|y l IH]; cbn; [by case_bool_decide|]. destruct (bool_decide (e = ep_eid y)); [done|]. apply IH. Qed.
Lemma tidy_app e l x : ep_queue x = [] -> tidy_after e l -> tidy_after e (l ++ [x]).
Proof.
  unfold tidy_after. intros Hx H. induction l as [|y l IH]; cbn [app remove_ep] in *.
  - case_bool_decide; [constructor|]. apply Forall_cons. split; [by intros _|constructor].
  - destruct (bool_decide (e = ep_eid y)).
    + apply Forall_app. split; [done|]. apply Forall_cons. split; [by intros _|constructor].
    + apply Forall_cons in H as [H1 H2]. apply Forall_cons. split; [done|]. by apply IH.
Qed.

Lemma queued_app e s t : queued e (s ++ t) = queued e s ++ queued e t.
Proof. apply omap_app. Qed.
Lemma fetched_app e s t : fetched_from e (s ++ t) = fetched_from e s ++ fetched_from e t.
Proof. apply omap_app. Qed.
Lemma queued_deliver e e' i b : queued e [EStep i (LAct (Deliver e' b) Queued)] = if decide (e' = e) then [b] else [].
Proof. cbn. by destruct (decide (e' = e)). Qed.
Lemma fetched_pop e e' i r : fetched_from e [EStep i (LAct (Pop e') r)] = match r with Some b => if decide (e' = e) then [b] else [] | None => [] end.
Proof. cbn. destruct r; [|done]. by destruct (decide (e' = e)). Qed.

Arguments first_ep : simpl never.
Arguments queued : simpl never.
Arguments fetched_from : simpl never.

Section props.
Context (host : eid) (gen_reports parallel : bool) (parse_record : list N -> option arecord)
        (lifetime_exceeded : N -> bundle -> bool).
Notation run := (run host gen_reports parallel parse_record lifetime_exceeded).
Notation mstep := (mstep host gen_reports parallel parse_record lifetime_exceeded).

Lemma agrees_same e s v l l' : first_ep e l' = first_ep e l \/ (ep_queue <$> first_ep e l') = (ep_queue <$> first_ep e l) -> tidy_after e l' ->
  queued e [v] = [] -> fetched_from e [v] = [] -> agrees e s l -> agrees e (s ++ [v]) l'.
Proof.
  intros Hf Ht Hq Hd [_ H]. split; [done|]. unfold queued, fetched_from in *. rewrite !omap_app. rewrite Hq, Hd, !app_nil_r.
  destruct Hf as [->|Hf]; [done|]. destruct (first_ep e l'), (first_ep e l); try done. cbn in Hf. injection Hf as ->. done.
Qed.
Lemma agrees_step e s l1 m1 v m2 : mstep m1 v m2 -> v <> EUnregister e -> l1 = n_eps (m_node m1) -> agrees e s l1 -> agrees e (s ++ [v]) (n_eps (m_node m2)).
Proof.
  intros Hs Hv -> Ha. pose proof Ha as [Ht Hm].
  assert (Hkeep : n_eps (m_node m2) = n_eps (m_node m1) -> queued e [v] = [] -> fetched_from e [v] = [] -> agrees e (s ++ [v]) (n_eps (m_node m2))).
  { intros E Hq Hd. rewrite E. apply (agrees_same _ _ _ (n_eps (m_node m1))); auto. }
  destruct (changes_eps v) eqn:Ec.
  2: { apply Hkeep; [by eapply same_eps|..]; destruct v as [| | | | | |i [[] r| |]]; try done; by destruct r. }
  inversion Hs as [m k|m e'|m e'|m e' on|m ps|m u d|m i k p o r p' n' Hi Hp Hx|m i k p q p'|m i k p p']; subst; try done.
  - destruct (has_endpoint e' (m_node m1)) eqn:Eh; [by apply Hkeep|]. cbn [n_eps m_node]. split; [by apply tidy_app|]. rewrite queued_app, fetched_app.
    replace (queued e [ERegister e']) with (@nil bundle) by done. replace (fetched_from e [ERegister e']) with (@nil bundle) by done. rewrite !app_nil_r.
    cbn [with_node m_node set_eps n_eps]. rewrite first_app. cbn [ep_eid]. destruct (first_ep e (n_eps (m_node m1))) as [x|]; [done|]. destruct Hm as [Hq Hd]. case_bool_decide; [|done]. cbn [ep_queue]. by rewrite app_nil_r, Hq, Hd.
  - assert (e <> e') by congruence. cbn. apply (agrees_same _ _ _ (n_eps (m_node m1))); try done; [left; by apply first_remove_ne|].
    unfold tidy_after in *. rewrite remove_remove. by apply Forall_remove_ep.
  - cbn. apply (agrees_same _ _ _ (n_eps (m_node m1))); try done; [|by apply tidy_alter]. right.
    destruct (decide (e = e')) as [->|Hne]; [|by rewrite first_alter_ne]. rewrite first_alter by done. by destruct (first_ep _ _).
  - destruct o; try done; cbn in Hx.
    + unfold find_ep in Hx. fold (first_ep e0 (n_eps (m_node m1))) in Hx. destruct (first_ep e0 (n_eps (m_node m1))) as [x|] eqn:Ef.
      * destruct Hx as [[-> ->]|(-> & _ & ->)]; [|by apply Hkeep]. split; [by apply tidy_alter|]. rewrite queued_app, fetched_app, queued_deliver.
        replace (fetched_from e [EStep i (LAct (Deliver e0 b) Queued)]) with (@nil bundle) by done. rewrite app_nil_r. cbn. destruct (decide (e0 = e)) as [->|Hne].
        -- rewrite first_alter by done. rewrite Ef in *. cbn. by rewrite Hm, <- app_assoc.
        -- rewrite first_alter_ne by (try done; congruence). by rewrite app_nil_r.
      * destruct Hx as [-> ->]. by apply Hkeep.
    + unfold find_ep in Hx. fold (first_ep e0 (n_eps (m_node m1))) in Hx. destruct (first_ep e0 (n_eps (m_node m1))) as [x|] eqn:Ef.
      * destruct Hx as [-> ->]. split; [by apply tidy_alter|]. rewrite queued_app, fetched_app, fetched_pop.
        replace (queued e [EStep i (LAct (Pop e0) (head (ep_queue x)))]) with (@nil bundle) by done. rewrite app_nil_r. cbn.
        destruct (decide (e0 = e)) as [->|Hne].
        -- rewrite first_alter by done. rewrite Ef in *. cbn. destruct x as [xe [|b q] xs]; cbn in *; [by rewrite app_nil_r|]. by rewrite <- app_assoc.
        -- rewrite first_alter_ne by (try done; congruence). destruct (head (ep_queue x)); by rewrite app_nil_r.
      * destruct Hx as [-> ->]. by apply Hkeep.
Qed.
Lemma agrees_run e t1 t2 m : run (t1 ++ t2) m -> one_registration e t1 t2 -> agrees e t2 (n_eps (m_node m)).
Proof.
  intros Hr [H1 H2].
  assert (Htidy : forall tr m, run tr m -> exists s, agrees e s (n_eps (m_node m))).
  { clear. induction 1 as [m Hi|tr m v m' Hr [s IH] Hs].
    - exists []. destruct Hi as (_ & _ & _ & Hq). split; [apply Forall_remove_ep, Forall_forall; auto|]. destruct (first_ep e (n_eps (m_node m))) eqn:E; [|done]. apply first_in in E as [E _]. by rewrite (Hq _ E).
    - assert (v = EUnregister e \/ v <> EUnregister e) as [->|Hne] by (destruct v as [|?|e'|? ?|?|? ?|? ?]; try (by right); destruct (decide (e' = e)); [left|right]; congruence).
      + exists []. inversion Hs; subst. destruct IH as [Ht _]. split; [unfold tidy_after in *; cbn; by apply Forall_remove_ep|]. cbn.
        destruct (first_ep e (remove_ep e (n_eps (m_node m)))) eqn:E; [|done]. apply first_in in E as [E E']. unfold tidy_after in Ht. rewrite Forall_forall in Ht. by rewrite (Ht _ E E').
      + exists (s ++ [v]). by eapply agrees_step. }
  revert m Hr. induction t2 as [|v t2 IH] using rev_ind; intros m Hr.
  - rewrite app_nil_r in Hr. destruct H1 as [->|[t0 ->]].
    + inversion Hr as [m0 Hi|tr' m0 e0 m1 Hr' Hs E]; subst; [|by destruct tr']. destruct Hi as (_ & _ & _ & Hq). split; [apply Forall_remove_ep, Forall_forall; auto|]. destruct (first_ep e (n_eps (m_node m))) eqn:E; [|done]. apply first_in in E as [E _]. by rewrite (Hq _ E).
    + inversion Hr as [m0 Hi E|tr' m0 e0 m1 Hr' Hs E]; subst; [by destruct t0|]. apply app_inj_tail in E as [-> ->]. destruct (Htidy _ _ Hr') as [s [Ht _]].
      inversion Hs; subst. cbn. split; [unfold tidy_after in *; by apply Forall_remove_ep|].
      destruct (first_ep e (remove_ep e (n_eps (m_node m0)))) eqn:E; [|done]. apply first_in in E as [E E']. unfold tidy_after in Ht. rewrite Forall_forall in Ht. by rewrite (Ht _ E E').
  - apply not_elem_of_app in H2 as [H2 H3]. rewrite app_assoc in Hr. inversion Hr as [m0 Hi E|tr' m0 e0 m1 Hr' Hs E]; subst; [by destruct (t1 ++ t2)|]. apply app_inj_tail in E as [-> ->].
    eapply agrees_step; [done| |done|by apply IH]. intros ->. apply H3. by left.
Qed.

(** ** C149 *)
(** What an application fetches is what was put into its queue since it registered,
    in that order and each bundle once; the rest waits for it.  It gets nothing
    only when nothing waits. *)
Theorem C149_in_order : forall e t1 t2 m, run (t1 ++ t2) m -> one_registration e t1 t2 ->
  fetched_from e t2 `prefix_of` queued e t2 /\
  (forall x, find_ep e (m_node m) = Some x -> queued e t2 = fetched_from e t2 ++ ep_queue x).
Proof.
  intros e t1 t2 m Hr H1. destruct (agrees_run _ _ _ _ Hr H1) as [_ Hm]. unfold find_ep. fold (first_ep e (n_eps (m_node m))).
  destruct (first_ep e (n_eps (m_node m))) as [x|].
  - split; [rewrite Hm; by apply prefix_app_r|]. by intros y [= <-].
  - destruct Hm as [-> ->]. done.
Qed.
Theorem C149_none_left : forall e t1 t2 i t3 m, run (t1 ++ t2 ++ EStep i (LAct (Pop e) None) :: t3) m -> one_registration e t1 t2 ->
  fetched_from e t2 = queued e t2.
Proof.
  intros e t1 t2 i t3 m Hr H1. rewrite app_assoc in Hr.
  assert (exists m1 m2, run (t1 ++ t2) m1 /\ mstep m1 (EStep i (LAct (Pop e) None)) m2) as (m1 & m2 & Hr1 & Hs).
  { assert (exists m2, run ((t1 ++ t2) ++ [EStep i (LAct (Pop e) None)]) m2) as [m2 H2].
    { eapply (run_app_inv _ _ _ _ _ _ t3). rewrite <- app_assoc. exact Hr. }
    inversion H2 as [m0 Hi E|tr' m0 e0 m1 Hr' Hs E]; subst; [by destruct (t1 ++ t2)|]. apply app_inj_tail in E as [-> ->]. eauto. }
  destruct (agrees_run _ _ _ _ Hr1 H1) as [_ Hm].
  inversion Hs as [| | | | | |mz i' k p o r p' n' Hi Hp Hx| |]; subst.
  repeat match goal with H : existT _ _ = existT _ _ |- _ => apply (Eqdep_dec.inj_pair2_eq_dec _ (fun x y => decide (x = y))) in H end. subst.
  cbn in Hx. unfold find_ep in Hx. fold (first_ep e (n_eps (m_node m1))) in Hx. destruct (first_ep e (n_eps (m_node m1))) as [x|]; [|by destruct Hm as [-> ->]].
  destruct Hx as [Hh _]. destruct (ep_queue x); [by rewrite app_nil_r in Hm|done].
Qed.
Lemma fetched_within e s b : b ∈ fetched_from e s -> exists t1 t2 t3, s = t1 ++ t2 ++ t3 /\ one_registration e t1 t2 /\ b ∈ fetched_from e t2.
Proof.
  assert (Hdec : forall w, w = EUnregister e \/ w <> EUnregister e).
  { intros [|?|e'|? ?|?|? ?|? ?]; try (by right). destruct (decide (e' = e)); [left|right]; congruence. }
  assert (D : forall s, exists t1 t2, s = t1 ++ t2 /\ one_registration e t1 t2).
  { clear s. induction s as [|w s (t1 & t2 & -> & H1 & H2)] using rev_ind; [exists [], []; split; [done|]; split; [by left|apply not_elem_of_nil]|].
    destruct (Hdec w) as [->|Hw].
    - exists ((t1 ++ t2) ++ [EUnregister e]), []. split; [by rewrite app_nil_r|]. split; [right; by eexists|apply not_elem_of_nil].
    - exists t1, (t2 ++ [w]). split; [by rewrite app_assoc|]. split; [done|]. apply not_elem_of_app. split; [done|]. intros Hx%elem_of_list_singleton. congruence. }
  induction s as [|v s IH] using rev_ind; [by intros H%elem_of_nil|]. intros H. unfold fetched_from in H. rewrite omap_app in H. apply elem_of_app in H as [H|H].
  - destruct (IH H) as (t1 & t2 & t3 & -> & H1 & H2). exists t1, t2, (t3 ++ [v]). split_and!; [by rewrite <- !app_assoc|done|done].
  - assert (Hv : v <> EUnregister e) by (intros ->; by apply elem_of_nil in H). destruct (D s) as (t1 & t2 & -> & H1 & H2).
    exists t1, (t2 ++ [v]), []. split_and!.
    + by rewrite app_nil_r, app_assoc.
    + split; [done|]. apply not_elem_of_app. split; [done|]. intros Hx%elem_of_list_singleton. congruence.
    + unfold fetched_from. rewrite omap_app. apply elem_of_app. by right.
Qed.
(** Each fetched bundle was put into the queue by a task that received or was
    given a bundle with this id for this endpoint. *)
Theorem C149_addressed : forall e tr b m, run tr m -> b ∈ fetched_from e tr ->
  exists i b0, bid b = bid b0 /\ b_dst b0 = e /\ (submitted tr i b0 \/ received tr i b0) /\ does tr i (Deliver e b) Queued.
Proof.
  intros e tr b m Hr Hb. destruct (fetched_within _ _ _ Hb) as (t1 & t2 & t3 & -> & H1 & H2).
  rewrite app_assoc in Hr. destruct (run_app_inv _ _ _ _ _ _ _ _ Hr) as [m1 Hr1]. destruct (C149_in_order _ _ _ _ Hr1 H1) as [[k Hk] _].
  assert (Hq : b ∈ queued e t2) by (rewrite Hk; apply elem_of_app; by left).
  unfold queued in Hq. apply elem_of_list_omap in Hq as (v & Hv & E). destruct v as [| | | | | |i [[] r| |]]; try done. destruct r; try done. destruct (decide (e0 = e)) as [->|]; [|done]. injection E as ->.
  exists i. apply elem_of_list_split in Hv as (s1 & s2 & ->). rewrite app_assoc in Hr1.
  destruct (C63_delivered_where _ _ _ _ _ _ _ _ _ _ _ _ Hr1) as (b0 & Hb0 & He & Ht).
  exists b0. split; [done|]. split; [done|]. split; [|unfold does; rewrite !elem_of_app, elem_of_cons; tauto].
  assert (Hin : forall k, tasks (t1 ++ s1) !! i = Some k -> tasks (t1 ++ (s1 ++ EStep i (LAct (Deliver e b) Queued) :: s2) ++ t3) !! i = Some k).
  { intros k' Hk'. rewrite <- (app_assoc s1), app_assoc. unfold tasks. rewrite flat_map_app. by apply lookup_app_l_Some. }
  destruct Ht as [Ht|[Ht _]]; [left|right]; by apply Hin.
Qed.
End props.
Print Assumptions C149_in_order.
Print Assumptions C149_none_left.
Print Assumptions C149_addressed.

(** two bundles for an application are received; it fetches three times and gets the
    two in their order and then nothing; the second bundle alone waits after the first fetch *)
Definition welcome2 := Bundle (asks false false false false) (Dtn "n1" "in") (Dtn "n8" "in") DtnNone 1000 1 5000 0 0
  [Block 1 1 no_kflags (CData [2])].
Definition inbox := Dtn "n1" "in".
Definition script149 (n : nat) := [DoStart (KReceive welcome); DoRun 0; DoStart (KReceive welcome2); DoRun 1] ++
  mjoin ((fun k => [DoStart (KPop inbox); DoRun (2 + k)]) <$> seq 0 n).
Definition run149 (n : nat) := go false (fun _ => None) (fate None true) (script149 n) (start_node [inbox] 2000000 1000000).
Example C149_case : run node1 false false (fun _ => None) (fun _ _ => false) ([] ++ fst (run149 3)) (snd (run149 3)) /\
  one_registration inbox [] (fst (run149 3)) /\
  length (fetched_from inbox (fst (run149 3))) = 2%nat /\
  fetched_from inbox (fst (run149 3)) = queued inbox (fst (run149 3)) /\
  bid <$> fetched_from inbox (fst (run149 1)) = [bid welcome] /\
  ((fun x => bid <$> ep_queue x) <$> find_ep inbox (m_node (snd (run149 1)))) = Some [bid welcome2].
Proof.
  split; [apply go_ok|]. split; [|by vm_compute]. split; [by left|]. intros H%elem_of_list_In. vm_compute in H. repeat destruct H as [H|H]; done.
Qed.
