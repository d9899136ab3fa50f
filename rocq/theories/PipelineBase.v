(** Reasoning about tasks and runs of the pipeline: traces of a program, a
    predicate on program trees that holds of all their traces, projection of a
    run to the trace of each task, and an interpreter that produces runs. *)
From stdpp Require Import prelude strings pretty gmap sorting.
From Coq Require Import NArith Lia Eqdep_dec.
From Verif Require Import Core StoreMem Peers Routing Pipeline.
Open Scope N_scope.

Lemma lact_inj o (r r' : resp o) : LAct o r = LAct o r' -> r = r'.
Proof. intros H. injection H as H. by apply (inj_pair2_eq_dec _ (fun x y => decide (x = y))) in H. Qed.
Lemma lact_op o o' r r' : LAct o r = LAct o' r' -> o = o'.
Proof. intros H. by injection H. Qed.

(** ** Traces *)
Inductive ptrace {A} : prog A -> list label -> prog A -> Prop :=
| pt_nil p : ptrace p [] p
| pt_cons p l q ls q' : pstep p l q -> ptrace q ls q' -> ptrace p (l :: ls) q'.
Lemma ptrace_app {A} (p : prog A) l1 q l2 q' : ptrace p l1 q -> ptrace q l2 q' -> ptrace p (l1 ++ l2) q'.
Proof. induction 1; [done|]. intros ?. cbn. econstructor; eauto. Qed.
Lemma ptrace_snoc {A} (p : prog A) ls q l q' : ptrace p ls q -> pstep q l q' -> ptrace p (ls ++ [l]) q'.
Proof. intros H ?. eapply ptrace_app; [done|]. econstructor; [done|constructor]. Qed.

Inductive csteps : list cprog -> list label -> list cprog -> Prop :=
| cs_nil cs : csteps cs [] cs
| cs_cons cs i c l c' ls cs' : cs !! i = Some c -> cstep c l c' -> csteps (<[i := c']> cs) ls cs' ->
    csteps cs (l :: ls) cs'.

(** [gsafe I Q P h p]: after the history [h], every access of [p] satisfies [I]
    (which may look at the history so far); if [p] ends with [a] the whole
    history satisfies [Q _ a], and if it panics [P].  [safe]: nothing is said
    about panics. *)
Section safe.
Context {A : Type} (I : list label -> label -> Prop) (Q : list label -> A -> Prop) (P : list label -> Prop).
Fixpoint gsafe (h : list label) (p : prog A) : Prop :=
  match p with
  | Ret a => Q h a
  | Panic => P h
  | Act o k => forall r, I h (LAct o r) /\ gsafe (h ++ [LAct o r]) (k r)
  | Spawn q k => I h (LSpawn q) /\ gsafe (h ++ [LSpawn q]) k
  | Par cs k => forall hs cs', csteps cs hs cs' ->
      (forall h1 l h2, hs = h1 ++ l :: h2 -> I (h ++ h1) l) /\
      (forall bs, done_flags cs' = Some bs ->
         I (h ++ hs) LJoin /\ gsafe (h ++ hs ++ [LJoin]) (k bs))
  end.
Lemma safe_step h p l p' : gsafe h p -> pstep p l p' -> I h l /\ gsafe (h ++ [l]) p'.
Proof.
  intros Hs Hp. destruct Hp as [o k r|q k|cs k i c l c' Hi Hc|cs k bs Hd]; cbn in Hs.
  - apply Hs.
  - done.
  - split.
    + edestruct (Hs [l]) as [H1 _]; [econstructor; [done..|constructor]|].
      specialize (H1 [] l []). rewrite app_nil_r in H1. by apply H1.
    + cbn. intros hs cs' Hcs.
      edestruct (Hs (l :: hs)) as [H1 H2]; [econstructor; done|]. split.
      * intros h1 l' h2 ->. specialize (H1 (l :: h1) l' h2 eq_refl). by rewrite <- app_assoc.
      * intros bs Hbs. specialize (H2 bs Hbs). by rewrite <- !app_assoc.
  - destruct (Hs [] cs) as [_ H2]; [constructor|]. specialize (H2 bs Hd).
    rewrite app_nil_r in H2. done.
Qed.
Lemma safe_trace p ls p' h : ptrace p ls p' -> gsafe h p ->
  (forall l1 l l2, ls = l1 ++ l :: l2 -> I (h ++ l1) l) /\ gsafe (h ++ ls) p'.
Proof.
  intros Ht. revert h. induction Ht as [p|p l q ls q' Hp Ht IH]; intros h Hs.
  - split; [by intros [] ? ?|]. by rewrite app_nil_r.
  - destruct (safe_step _ _ _ _ Hs Hp) as [Hl Hq]. destruct (IH _ Hq) as [H1 H2].
    split; [|by rewrite <- app_assoc in H2].
    intros l1 l0 l2 E. destruct l1 as [|x l1]; cbn in E; injection E as -> E.
    + by rewrite app_nil_r.
    + specialize (H1 _ _ _ E). by rewrite <- app_assoc in H1.
Qed.
Lemma safe_ret p ls a h : ptrace p ls (Ret a) -> gsafe h p -> Q (h ++ ls) a.
Proof. intros Ht Hs. by apply (safe_trace _ _ _ _ Ht Hs). Qed.
Lemma safe_panic p ls h : ptrace p ls Panic -> gsafe h p -> P (h ++ ls).
Proof. intros Ht Hs. by apply (safe_trace _ _ _ _ Ht Hs). Qed.
End safe.
Notation safe I Q := (gsafe I Q (fun _ => True)).

Lemma gsafe_mono {A} (I I' : list label -> label -> Prop) (Q Q' : list label -> A -> Prop) (P P' : list label -> Prop) p h :
  (forall h l, I h l -> I' h l) -> (forall h a, Q h a -> Q' h a) -> (forall h, P h -> P' h) ->
  gsafe I Q P h p -> gsafe I' Q' P' h p.
Proof.
  intros HI HQ HP. revert h. induction p as [a| |o k IH|q k IH|cs k IH]; intros h; cbn.
  - apply HQ.
  - apply HP.
  - intros H r. destruct (H r). split; [by apply HI|by apply IH].
  - intros [??]. split; [by apply HI|by apply IH].
  - intros H hs cs' Hc. destruct (H hs cs' Hc) as [H1 H2]. split.
    + intros. apply HI. eauto.
    + intros bs Hb. destruct (H2 bs Hb). split; [by apply HI|by apply IH].
Qed.
Lemma safe_mono {A} (I I' : list label -> label -> Prop) (Q Q' : list label -> A -> Prop) P p h :
  (forall h l, I h l -> I' h l) -> (forall h a, Q h a -> Q' h a) -> gsafe I Q P h p -> gsafe I' Q' P h p.
Proof. intros ??. by apply gsafe_mono. Qed.
Lemma safe_bind {A B} I (Q : list label -> B -> Prop) P (m : prog A) (f : A -> prog B) h :
  gsafe I (fun h' a => gsafe I Q P h' (f a)) P h m -> gsafe I Q P h (bind m f).
Proof.
  revert h. induction m as [a| |o k IH|q k IH|cs k IH]; intros h; cbn.
  - done.
  - done.
  - intros H r. destruct (H r). split; [done|by apply IH].
  - intros [??]. split; [done|by apply IH].
  - intros H hs cs' Hc. destruct (H hs cs' Hc) as [H1 H2]. split; [done|].
    intros bs Hb. destruct (H2 bs Hb). split; [done|by apply IH].
Qed.
Lemma safe_call I {o} (Q : list label -> resp o -> Prop) P h :
  (forall r, I h (LAct o r) /\ Q (h ++ [LAct o r]) r) -> gsafe I Q P h (call o).
Proof. intros H r. apply H. Qed.
(** the history grows by a trace of the program *)
Lemma safe_ptrace {A} (p0 : prog A) h0 :
  safe (fun h l => exists ls q, h = h0 ++ ls /\ ptrace p0 (ls ++ [l]) q)
       (fun h a => exists ls, h = h0 ++ ls /\ ptrace p0 ls (Ret a)) h0 p0.
Proof.
  assert (forall p ls, ptrace p0 ls p ->
    safe (fun h l => exists ls q, h = h0 ++ ls /\ ptrace p0 (ls ++ [l]) q)
       (fun h a => exists ls, h = h0 ++ ls /\ ptrace p0 ls (Ret a)) (h0 ++ ls) p) as H.
  { induction p as [a| |o k IH|q k IH|cs k IH]; intros ls Ht; cbn.
    - eauto.
    - done.
    - intros r. assert (Ht' : ptrace p0 (ls ++ [LAct o r]) (k r)) by (eapply ptrace_snoc; [done|constructor]).
      split; [eauto|]. rewrite <- app_assoc. by apply IH.
    - assert (Ht' : ptrace p0 (ls ++ [LSpawn q]) k) by (eapply ptrace_snoc; [done|constructor]).
      split; [eauto|]. rewrite <- app_assoc. by apply IH.
    - intros hs cs' Hc.
      assert (Hpre : forall a hs b, csteps a hs b -> @ptrace A (Par a k) hs (Par b k)).
      { clear. induction 1; [constructor|]. econstructor; [|done]. by econstructor. }
      split.
      + intros h1 l h2 ->.
        assert (Hsplit : forall a h1 l h2 b, csteps a (h1 ++ l :: h2) b -> exists c, csteps a (h1 ++ [l]) c).
        { clear. intros a h1. revert a. induction h1 as [|x h1 IH]; intros a l h2 b H; cbn in H; inversion H; subst.
          - eexists. econstructor; [done..|constructor].
          - edestruct IH as [c0 Hc0]; [done|]. eexists. cbn. econstructor; done. }
        apply Hsplit in Hc as [c Hc]. exists (ls ++ h1), (Par c k). split; [by rewrite app_assoc|].
        rewrite <- app_assoc. eapply ptrace_app; [done|]. by apply Hpre.
      + intros bs Hb.
        assert (Ht' : ptrace p0 (ls ++ hs ++ [LJoin]) (k bs)).
        { rewrite app_assoc. eapply ptrace_snoc; [eapply ptrace_app; [done|by apply Hpre]|]. by constructor. }
        split; [|rewrite <- app_assoc; by apply IH].
        exists (ls ++ hs), (k bs). rewrite <- !app_assoc. done. }
  specialize (H p0 [] (pt_nil _)). by rewrite app_nil_r in H.
Qed.

(** ** Runs *)
Section runs.
Context (host : eid) (gen_reports parallel : bool) (parse_record : list N -> option arecord)
        (lifetime_exceeded : N -> bundle -> bool).
Notation task_of := (task_of host gen_reports parallel parse_record).
Notation mstep := (mstep host gen_reports parallel parse_record lifetime_exceeded).
Notation run := (run host gen_reports parallel parse_record lifetime_exceeded).
Notation access := (access host lifetime_exceeded).

(** the tasks that were started, in order; a task is identified by its position *)
Definition tasks (tr : list event) : list kind :=
  flat_map (fun e => match e with
                     | EStart k => [k]
                     | EStep _ (LSpawn q) => [KForward q]
                     | _ => []
                     end) tr.
(** what task [i] did *)
Definition did (i : nat) (tr : list event) : list label :=
  flat_map (fun e => match e with EStep j l => if decide (i = j) then [l] else [] | _ => [] end) tr.
Lemma tasks_app t1 t2 : tasks (t1 ++ t2) = tasks t1 ++ tasks t2.
Proof. apply flat_map_app. Qed.
Lemma did_app i t1 t2 : did i (t1 ++ t2) = did i t1 ++ did i t2.
Proof. apply flat_map_app. Qed.

Lemma run_tasks tr m : run tr m -> map fst (m_tasks m) = tasks tr.
Proof.
  induction 1 as [m (_ & H & _)|tr m e m' _ IH Hs]; [by rewrite H|].
  rewrite tasks_app. rewrite <- IH.
  destruct Hs as [m k _|m ep|m ep|m ep on|m ps|m u d _ _|m i k p o r p' n' Hi _ _|m i k p q p' Hi _|m i k p p' Hi _]; cbn;
    rewrite ?app_nil_r; try done.
  - by rewrite map_app.
  - by destruct (has_endpoint ep (m_node m)).
  - rewrite list_fmap_insert. cbn. rewrite list_insert_id; [done|]. by rewrite list_lookup_fmap, Hi.
  - rewrite map_app. cbn. f_equal. rewrite list_fmap_insert. cbn. rewrite list_insert_id; [done|]. by rewrite list_lookup_fmap, Hi.
  - rewrite list_fmap_insert. cbn. rewrite list_insert_id; [done|]. by rewrite list_lookup_fmap, Hi.
Qed.
Lemma did_none tr m i : run tr m -> (length (m_tasks m) <= i)%nat -> did i tr = [].
Proof.
  induction 1 as [m _|tr m e m' _ IH Hs]; intros Hi; [done|].
  rewrite did_app. 
  destruct Hs as [m k _|m ep|m ep|m ep on|m ps|m u d _ _|m j k p o r p' n' Hj _ _|m j k p q p' Hj _|m j k p p' Hj _]; cbn in *;
    rewrite ?app_nil_r; rewrite ?app_length, ?insert_length in Hi; cbn in Hi.
  - apply IH. lia.
  - apply IH. by destruct (has_endpoint ep (m_node m)).
  - by apply IH.
  - by apply IH.
  - by apply IH.
  - by apply IH.
  - rewrite IH by lia. destruct (decide (i = j)) as [->|]; [|done]. apply lookup_lt_Some in Hj. lia.
  - rewrite IH by lia. destruct (decide (i = j)) as [->|]; [|done]. apply lookup_lt_Some in Hj. lia.
  - rewrite IH by lia. destruct (decide (i = j)) as [->|]; [|done]. apply lookup_lt_Some in Hj. lia.
Qed.
Lemma run_did tr m i k p : run tr m -> m_tasks m !! i = Some (k, p) -> ptrace (task_of k) (did i tr) p.
Proof.
  intros Hr. revert i k p. induction Hr as [m (_ & H & _)|tr m e m' Hr IH Hs]; intros i k p Hi.
  { by rewrite H in Hi. }
  rewrite did_app.
  destruct Hs as [m k0 _|m ep|m ep|m ep on|m ps|m u d _ _|m j k0 p0 o r p' n' Hj Hp _|m j k0 p0 q p' Hj Hp|m j k0 p0 p' Hj Hp]; cbn in Hi |- *;
    rewrite ?app_nil_r; try (by apply IH).
  - apply lookup_app_Some in Hi as [Hi|[Hlen Hi]]; [by apply IH|].
    rewrite (did_none tr m) by done. apply list_lookup_singleton_Some in Hi as [_ Hi]. injection Hi as <- <-. constructor.
  - apply IH. by destruct (has_endpoint ep (m_node m)).
  - destruct (decide (i = j)) as [->|Hne].
    + rewrite list_lookup_insert in Hi by (by eapply lookup_lt_Some). injection Hi as <- <-.
      eapply ptrace_snoc; [by apply IH|done].
    + rewrite list_lookup_insert_ne in Hi by done. rewrite app_nil_r. by apply IH.
  - apply lookup_app_Some in Hi as [Hi|[Hlen Hi]].
    + destruct (decide (i = j)) as [->|Hne].
      * rewrite list_lookup_insert in Hi by (by eapply lookup_lt_Some). injection Hi as <- <-.
        eapply ptrace_snoc; [by apply IH|done].
      * rewrite list_lookup_insert_ne in Hi by done. rewrite app_nil_r. by apply IH.
    + rewrite insert_length in Hlen. rewrite (did_none tr m) by done.
      apply list_lookup_singleton_Some in Hi as [_ Hi]. injection Hi as <- <-.
      destruct (decide (i = j)) as [->|]; [|constructor]. apply lookup_lt_Some in Hj. lia.
  - destruct (decide (i = j)) as [->|Hne].
    + rewrite list_lookup_insert in Hi by (by eapply lookup_lt_Some). injection Hi as <- <-.
      eapply ptrace_snoc; [by apply IH|done].
    + rewrite list_lookup_insert_ne in Hi by done. rewrite app_nil_r. by apply IH.
Qed.
Lemma run_app_inv t1 t2 m : run (t1 ++ t2) m -> exists m1, run t1 m1.
Proof.
  revert m. induction t2 as [|e t2 IH] using rev_ind; intros m H; [rewrite app_nil_r in H; eauto|].
  inversion H as [? ? E|tr m0 e0 m' Hr Hs E].
  - destruct t1; [destruct t2; done|done].
  - rewrite app_assoc in E. apply app_inj_tail in E as [-> _]. by apply IH in Hr.
Qed.
Lemma run_split t1 e t2 m : run (t1 ++ e :: t2) m -> exists m1 m2, run t1 m1 /\ mstep m1 e m2 /\ run (t1 ++ [e]) m2.
Proof.
  intros H. rewrite cons_middle, app_assoc in H. apply run_app_inv in H as [m2 H].
  assert (H' := H). inversion H as [? ? E|tr m0 e0 m' Hr Hs E]; [by destruct t1|].
  apply app_inj_tail in E as [-> ->]. eauto.
Qed.
(** what task [i] does next, given what it did *)
Lemma run_task_step t1 i l t2 m : run (t1 ++ EStep i l :: t2) m ->
  exists k q, tasks (t1 ++ EStep i l :: t2) !! i = Some k /\ tasks t1 !! i = Some k /\
    ptrace (task_of k) (did i t1 ++ [l]) q.
Proof.
  intros H. destruct (run_split _ _ _ _ H) as (m1 & m2 & H1 & Hs & _).
  assert (exists k p q, m_tasks m1 !! i = Some (k, p) /\ pstep p l q) as (k & p & q & Hi & Hp).
  { inversion Hs; subst; eauto. }
  exists k, q. assert (Ht : tasks t1 !! i = Some k).
  { rewrite <- (run_tasks _ _ H1). by rewrite list_lookup_fmap, Hi. }
  split; [|split; [done|]].
  - rewrite tasks_app. by apply lookup_app_l_Some.
  - eapply ptrace_snoc; [by eapply run_did|done].
Qed.
(** facts about all accesses of all tasks of all kinds *)
Lemma run_safe (I : kind -> list label -> label -> Prop) t1 i l t2 m :
  (forall k, safe (I k) (fun _ _ => True) [] (task_of k)) ->
  run (t1 ++ EStep i l :: t2) m ->
  exists k, tasks t1 !! i = Some k /\ I k (did i t1) l.
Proof.
  intros HI H. destruct (run_task_step _ _ _ _ _ H) as (k & q & _ & Ht & Hp).
  exists k. split; [done|]. destruct (safe_trace _ _ _ _ _ _ _ Hp (HI k)) as [H1 _].
  by apply (H1 (did i t1) l []).
Qed.
(** a task that cannot go on has returned or panicked *)
Definition ended {A} (p : prog A) : Prop := forall l q, ~ pstep p l q.
Lemma resp_some o : exists r : resp o, True.
Proof. destruct o; cbn; unshelve eexists; try exact Logic.I; try exact None; try exact true; try exact []; try exact 0%N; try exact tt; try exact Queued; exact ([], true). Qed.
Lemma ended_spec {A} (p : prog A) : ended p -> (exists a, p = Ret a) \/ p = Panic.
Proof.
  intros H. destruct p as [a| |o k|q k|cs k]; [eauto|eauto|exfalso..].
  - destruct (resp_some o) as [r _]. exact (H _ _ (pstep_act o k r)).
  - eapply H. constructor.
  - destruct (done_flags cs) as [bs|] eqn:E; [eapply H; by constructor|].
    assert (exists i o f, cs !! i = Some (CAct o f)) as (i & o & f & Hi).
    { clear H. induction cs as [|c cs IH]; [done|]. destruct c as [b|o f]; [|by exists 0%nat, o, f].
      unfold done_flags in E, IH. cbn in E. destruct (mapM _ cs) eqn:E'; [done|].
      destruct (IH eq_refl) as (i & o & f & Hi). by exists (S i), o, f. }
    destruct (resp_some o) as [r _]. exact (H _ _ (pstep_child _ _ _ _ _ _ Hi (cstep_act o f r))).
Qed.
Lemma run_ended (I : kind -> list label -> label -> Prop) (Q : kind -> list label -> Prop) tr m i k p :
  (forall k, gsafe (I k) (fun h _ => Q k h) (Q k) [] (task_of k)) ->
  run tr m -> m_tasks m !! i = Some (k, p) -> ended p -> Q k (did i tr).
Proof.
  intros HI Hr Hi He. assert (Ht := run_did _ _ _ _ _ Hr Hi).
  destruct (ended_spec _ He) as [[a ->]| ->].
  - apply (safe_ret _ _ _ _ _ _ _ Ht (HI k)).
  - apply (safe_panic _ _ _ _ _ _ Ht (HI k)).
Qed.
(** the access of an event and the state before and after *)
Lemma run_access t1 i o r t2 m : run (t1 ++ EStep i (LAct o r) :: t2) m ->
  exists m1 m2, run t1 m1 /\ access (m_node m1) o r (m_node m2) /\ run (t1 ++ [EStep i (LAct o r)]) m2.
Proof.
  intros H. destruct (run_split _ _ _ _ H) as (m1 & m2 & H1 & Hs & H2).
  exists m1, m2. split; [done|]. split; [|done]. inversion Hs; subst.
  repeat match goal with H : existT _ _ = existT _ _ |- _ => apply (inj_pair2_eq_dec _ (fun x y => decide (x = y))) in H end.
  subst. done.
Qed.
(** [path m es m']: the events lead from [m] to [m'];
    [passes tr m t0 m0]: on the way to [m] by [tr] the node was in the state [m0]
    after [t0] *)
Inductive path : machine -> list event -> machine -> Prop :=
| path_nil m : path m [] m
| path_cons m e m1 es m' : mstep m e m1 -> path m1 es m' -> path m (e :: es) m'.
Definition passes (tr : list event) (m : machine) (t0 : list event) (m0 : machine) : Prop :=
  exists rest, tr = t0 ++ rest /\ run t0 m0 /\ path m0 rest m.
Lemma path_snoc m es m1 e m2 : path m es m1 -> mstep m1 e m2 -> path m (es ++ [e]) m2.
Proof. induction 1; intros Hs; cbn; econstructor; eauto; constructor. Qed.
Lemma run_passes t0 rest m : run (t0 ++ rest) m -> exists m0, passes (t0 ++ rest) m t0 m0.
Proof.
  revert m. induction rest as [|e rest IH] using rev_ind; intros m H.
  - exists m. exists []. rewrite app_nil_r in *. split; [done|]. split; [done|constructor].
  - rewrite app_assoc in H. inversion H as [? ? E|tr m1 e0 m' Hr Hs E]; [by destruct (t0 ++ rest)|].
    apply app_inj_tail in E as [-> ->]. destruct (IH _ Hr) as (m0 & rest' & E & H0 & Hp).
    apply app_inv_head in E as <-. exists m0, (rest ++ [e]). rewrite app_assoc. split; [done|]. split; [done|]. by eapply path_snoc.
Qed.
Lemma passes_access t0 i o r t2 m m0 : passes (t0 ++ EStep i (LAct o r) :: t2) m t0 m0 ->
  run t0 m0 /\ exists m2, access (m_node m0) o r (m_node m2).
Proof.
  intros (rest & E & H0 & Hp). apply app_inv_head in E as <-. split; [done|].
  inversion Hp as [|? ? m1 ? ? Hs Hp2]; subst. exists m1. inversion Hs; subst.
  repeat match goal with H : existT _ _ = existT _ _ |- _ => apply (inj_pair2_eq_dec _ (fun x y => decide (x = y))) in H end.
  subst. done.
Qed.
Lemma did_In i tr l : l ∈ did i tr -> exists t1 t2, tr = t1 ++ EStep i l :: t2.
Proof.
  unfold did. rewrite elem_of_list_In, in_flat_map. intros (e & He & Hl).
  destruct e as [| | | | | |j l']; cbn in Hl; try done.
  destruct (decide (i = j)) as [->|]; [|done]. destruct Hl as [->|[]].
  apply elem_of_list_In, elem_of_list_split in He. naive_solver.
Qed.
(** the history of a task is an order-preserving part of the run *)
Lemma did_split i tr h1 l h2 : did i tr = h1 ++ l :: h2 ->
  exists t1 t2, tr = t1 ++ EStep i l :: t2 /\ did i t1 = h1 /\ did i t2 = h2.
Proof.
  revert h1. induction tr as [|e tr IH]; intros h1 E; [by destruct h1|].
  assert (Hc : did i (e :: tr) = did i [e] ++ did i tr) by apply (did_app i [e] tr).
  rewrite Hc in E. clear Hc.
  assert (Hskip : did i [e] = [] -> exists t1 t2, e :: tr = t1 ++ EStep i l :: t2 /\ did i t1 = h1 /\ did i t2 = h2).
  { intros H0. rewrite H0 in E. destruct (IH _ E) as (t1 & t2 & -> & H1 & H2).
    exists (e :: t1), t2. split; [done|]. split; [|done].
    change (e :: t1) with ([e] ++ t1). by rewrite did_app, H0. }
  destruct e as [| | | | | |j l']; try (by apply Hskip).
  destruct (decide (i = j)) as [->|Hne].
  - assert (Hd : did j [EStep j l'] = [l']) by (cbn; by rewrite decide_True).
    rewrite Hd in E. cbn in E. destruct h1 as [|x h1]; cbn in E; injection E as -> E.
    + exists [], tr. done.
    + destruct (IH _ E) as (t1 & t2 & -> & H1 & H2).
      exists (EStep j x :: t1), t2. split; [done|]. split; [|done].
      change (EStep j x :: t1) with ([EStep j x] ++ t1). by rewrite did_app, Hd, H1.
  - apply Hskip. cbn. by rewrite decide_False.
Qed.
End runs.

(** ** Which accesses a program can make at all *)
Fixpoint cemits (C : label -> Prop) (c : cprog) : Prop :=
  match c with
  | CDone _ => True
  | CAct o k => forall r, C (LAct o r) /\ cemits C (k r)
  end.
Fixpoint emits {A} (C : label -> Prop) (p : prog A) : Prop :=
  match p with
  | Ret _ | Panic => True
  | Act o k => forall r, C (LAct o r) /\ emits C (k r)
  | Spawn q k => C (LSpawn q) /\ emits C k
  | Par cs k => Forall (cemits C) cs /\ C LJoin /\ forall bs, emits C (k bs)
  end.
Lemma emits_bind {A B} C (m : prog A) (f : A -> prog B) :
  emits C m -> (forall a, emits C (f a)) -> emits C (bind m f).
Proof.
  intros Hm Hf. induction m as [a| |o k IH|q k IH|cs k IH]; cbn in *; [done|done|..].
  - intros r. destruct (Hm r). split; [done|by apply IH].
  - destruct Hm. split; [done|by apply IH].
  - destruct Hm as (?&?&?). split; [done|]. split; [done|]. intros. by apply IH.
Qed.
Lemma emits_mono {A} (C C' : label -> Prop) (p : prog A) :
  (forall l, C l -> C' l) -> emits C p -> emits C' p.
Proof.
  intros HC. assert (Hc : forall c, cemits C c -> cemits C' c).
  { induction c as [|o k IH]; cbn; [done|]. intros H r. destruct (H r). split; [by apply HC|by apply IH]. }
  induction p as [a| |o k IH|q k IH|cs k IH]; cbn; [done|done|..].
  - intros H r. destruct (H r). split; [by apply HC|by apply IH].
  - intros []. split; [by apply HC|by apply IH].
  - intros (?&?&?). split; [by eapply Forall_impl|]. split; [by apply HC|]. intros. by apply IH.
Qed.
Lemma csteps_emits C cs hs cs' : csteps cs hs cs' -> Forall (cemits C) cs ->
  Forall C hs /\ Forall (cemits C) cs'.
Proof.
  induction 1 as [cs|cs i c l c' ls cs' Hi Hc _ IH]; intros HF; [done|].
  assert (Hci := Forall_lookup_1 _ _ _ _ HF Hi). destruct Hc as [o k r]. cbn in Hci.
  destruct (Hci r) as [H1 H2]. destruct IH as [H3 H4]; [by apply Forall_insert|].
  split; [by constructor|done].
Qed.
Lemma gsafe_emits {A} C (I : list label -> label -> Prop) (Q : list label -> A -> Prop) (P : list label -> Prop) h (p : prog A) :
  emits C p ->
  (forall hs l, Forall C hs -> C l -> I (h ++ hs) l) ->
  (forall hs a, Forall C hs -> Q (h ++ hs) a) ->
  (forall hs, Forall C hs -> P (h ++ hs)) ->
  gsafe I Q P h p.
Proof.
  intros He HI HQ HP.
  assert (H : forall p hs, emits C p -> Forall C hs -> gsafe I Q P (h ++ hs) p).
  { clear p He. induction p as [a| |o k IH|q k IH|cs k IH]; intros hs He Hhs; cbn in *.
    - by apply HQ.
    - by apply HP.
    - intros r. destruct (He r). split; [by apply HI|]. rewrite <- app_assoc. apply IH; [done|].
      apply Forall_app. auto.
    - destruct He. split; [by apply HI|]. rewrite <- app_assoc. apply IH; [done|].
      apply Forall_app. auto.
    - destruct He as (Hc & HJ & Hk). intros cl cs' Hcs. destruct (csteps_emits _ _ _ _ Hcs Hc) as [H1 _]. split.
      + intros h1 l h2 ->. apply Forall_app in H1 as [Ha Hb]. apply Forall_cons in Hb as [Hb _].
        rewrite <- app_assoc. apply HI; [|done]. apply Forall_app. auto.
      + intros bs _. split; [rewrite <- app_assoc; apply HI; [|done]; apply Forall_app; auto|].
        rewrite <- app_assoc. apply IH; [done|]. repeat (apply Forall_app; split); auto. }
  specialize (H p []). rewrite app_nil_r in H. by apply H.
Qed.
Lemma safe_emits {A} C (I : list label -> label -> Prop) (Q : list label -> A -> Prop) h (p : prog A) :
  emits C p ->
  (forall hs l, Forall C hs -> C l -> I (h ++ hs) l) ->
  (forall hs a, Forall C hs -> Q (h ++ hs) a) ->
  safe I Q h p.
Proof. intros ???. by eapply gsafe_emits. Qed.
Lemma safe_emits_of {A} C (p : prog A) h :
  emits C p -> safe (fun _ l => C l) (fun _ _ => True) h p.
Proof. intros He. eapply safe_emits; [done|..]; auto. Qed.
Lemma emits_trace {A} C (p : prog A) ls q : ptrace p ls q -> emits C p -> Forall C ls /\ emits C q.
Proof.
  induction 1 as [p|p l q ls q' Hp _ IH]; intros He; [done|].
  assert (C l /\ emits C q) as [H1 H2].
  { destruct Hp as [o k r|p k|cs k i c l c' Hi Hc|cs k bs Hd]; cbn in He.
    - apply He.
    - done.
    - destruct He as (HF & HJ & Hk). edestruct csteps_emits as [H1 H2].
      + econstructor; [exact Hi|exact Hc|constructor].
      + exact HF.
      + apply Forall_cons in H1 as [??]. done.
    - destruct He as (HF & HJ & Hk). done. }
  destruct (IH H2). split; [by constructor|done].
Qed.
